(** Specification vocabulary for reactants: the amounts they hold. *)
From Coq Require Import String QArith Qcanon.
From stdpp Require Import prelude strings gmap.
From Verif.Solution Require Import Spec.
From Verif.Reactant Require Import Model.
Local Open Scope Qc_scope.

(** Sum of [q] over the elements of a list that satisfy [p]. *)
Fixpoint sum_by {C} (p : C -> bool) (q : C -> Qc) (l : list C) : Qc :=
  match l with [] => 0 | c :: l' => (if p c then q c else 0) + sum_by p q l' end.

(** The amounts a cell can hold outside its solution. *)
Inductive quantity :=
| QExchange (formula element : string)        (* moles of an element on an exchanger *)
| QExchangeCharge (formula : string)
| QPhase (name : string)                      (* moles of an equilibrium phase *)
| QPhaseInitial (name : string)
| QPhaseElement (element : string)
| QGas (name : string)                        (* moles of a gas component *)
| QGasVolume | QGasMoles
| QSolid (ss comp : string)                   (* moles of a solid-solution component *)
| QSolidInitial (ss comp : string)
| QKinetic (name : string)                    (* current moles of a kinetic reactant *)
| QKinetic0 (name : string)                   (* its initial moles *)
| QSites (formula : string)                   (* moles of surface sites *)
| QSorbed (formula element : string)          (* moles of an element on a surface *)
| QSurfaceCharge (formula : string)
| QGrams (charge : string)                    (* mass, charge, water and ions of a double layer *)
| QChargeBalance (charge : string)
| QWater (charge : string)
| QDiffuse (charge element : string).

(** Which part of the store a quantity lives in. *)
Inductive kind := KEx | KPP | KGas | KSS | KKin | KSurf.
Definition kind_of (q : quantity) : kind :=
  match q with
  | QExchange _ _ | QExchangeCharge _ => KEx
  | QPhase _ | QPhaseInitial _ | QPhaseElement _ => KPP
  | QGas _ | QGasVolume | QGasMoles => KGas
  | QSolid _ _ | QSolidInitial _ _ => KSS
  | QKinetic _ | QKinetic0 _ => KKin
  | _ => KSurf
  end.
Definition exch_amount (q : quantity) (e : exch) : Qc :=
  match q with
  | QExchange f m => sum_by (fun c => bool_decide (ec_formula c = f)) (fun c => listed (ec_totals c) m) (ex_comps e)
  | QExchangeCharge f => sum_by (fun c => bool_decide (ec_formula c = f)) ec_cb (ex_comps e)
  | _ => 0
  end.
Definition pp_amount (q : quantity) (p : pp) : Qc :=
  match q with
  | QPhase n => sum_by (fun kc => bool_decide (pc_name kc.2 = n)) (fun kc => pc_moles kc.2) (pp_comps p)
  | QPhaseInitial n => sum_by (fun kc => bool_decide (pc_name kc.2 = n)) (fun kc => pc_init kc.2) (pp_comps p)
  | QPhaseElement m => listed (pp_elts p) m
  | _ => 0
  end.
Definition gas_amount (q : quantity) (g : gas) : Qc :=
  match q with
  | QGas n => sum_by (fun c => bool_decide (gc_name c = n)) gc_moles (g_comps g)
  | QGasVolume => g_volume g
  | QGasMoles => g_moles g
  | _ => 0
  end.
Definition ss_amount (q : quantity) (l : list (string * ss)) : Qc :=
  match q with
  | QSolid s c => sum_by (fun kv => bool_decide (ss_name kv.2 = s))
        (fun kv => sum_by (fun x => bool_decide (lowered (sc_name x) = lowered c)) sc_moles (ss_comps kv.2)) l
  | QSolidInitial s c => sum_by (fun kv => bool_decide (ss_name kv.2 = s))
        (fun kv => sum_by (fun x => bool_decide (lowered (sc_name x) = lowered c)) sc_initial (ss_comps kv.2)) l
  | _ => 0
  end.
Definition kin_amount (q : quantity) (k : kin) : Qc :=
  match q with
  | QKinetic n => sum_by (fun c => bool_decide (kc_name c = n)) kc_m (k_comps k)
  | QKinetic0 n => sum_by (fun c => bool_decide (kc_name c = n)) kc_m0 (k_comps k)
  | _ => 0
  end.
Definition surf_amount (q : quantity) (s : surf) : Qc :=
  match q with
  | QSites f => sum_by (fun c => bool_decide (uc_formula c = f)) uc_moles (u_comps s)
  | QSorbed f m => sum_by (fun c => bool_decide (uc_formula c = f)) (fun c => listed (uc_totals c) m) (u_comps s)
  | QSurfaceCharge f => sum_by (fun c => bool_decide (uc_formula c = f)) uc_cb (u_comps s)
  | QGrams h => sum_by (fun c => bool_decide (uh_name c = h)) uh_grams (u_charges s)
  | QChargeBalance h => sum_by (fun c => bool_decide (uh_name c = h)) uh_cb (u_charges s)
  | QWater h => sum_by (fun c => bool_decide (uh_name c = h)) uh_water (u_charges s)
  | QDiffuse h m => sum_by (fun c => bool_decide (uh_name c = h)) (fun c => listed (uh_ddl c) m) (u_charges s)
  | _ => 0
  end.

(** The name a quantity is about is not empty. *)
Definition named_q (q : quantity) : Prop :=
  match q with
  | QExchange s _ | QExchangeCharge s | QPhase s | QPhaseInitial s | QGas s
  | QSolid s _ | QSolidInitial s _ | QKinetic s | QKinetic0 s | QSites s | QSorbed s _
  | QSurfaceCharge s | QGrams s | QChargeBalance s | QWater s | QDiffuse s _ => s <> ""%string
  | QPhaseElement _ | QGasVolume | QGasMoles => True
  end.

(** A phase has one alternative formula [fm], and maps are keyed by the names of what they hold. *)
Definition pp_ok (fm : string -> string) (p : pp) : Prop :=
  forall k c, (k, c) ∈ pp_comps p -> k = pc_name c /\ pc_formula c = fm (pc_name c).
Definition ss_ok (l : list (string * ss)) : Prop := forall k s, (k, s) ∈ l -> k = ss_name s.
