(** The setters of units, modes, flags, times and per-cell properties, and the two getters that
    write what they return back into the settings.

    Source: src/PhreeqcRM.cpp, thread build (the MPI branches are not modelled; in particular the
    early return "already equal" of the MPI build). Clearing phreeqcrm_error_string, the messages
    written and the refresh of the BMI variables ([UpdateBMI]) are not modelled here. *)
From Coq Require Import ZArith.
From stdpp Require Import prelude.
From Verif.Base Require Import Result.

(** How a call ends for the caller: it returns a code, throws PhreeqcRMStop, ends the process, or
    is undefined (an index outside a vector). *)
Inductive reply := Returned (r : irm_result) | Thrown | Exited (r : irm_result) | Broken.

(** ReturnHandler, lines 9633-9662. Mode 3 (and anything else) falls into the default branch. *)
Definition return_handler (mode : Z) (r : irm_result) : reply :=
  if (irm_code r <? 0)%Z then
    if (mode =? 0)%Z then Returned r
    else if (mode =? 1)%Z then Thrown
    else if (mode =? 2)%Z then Exited r
    else Returned r
  else Returned r.

(** Int2IrmResult, lines 6893-6927. [-7] is IRM_FAIL by the default branch. *)
Definition int2irm (i : Z) (positive_ok : bool) : irm_result :=
  let r := if (i <? 0)%Z then
             if (i =? -1)%Z then IRM_OUTOFMEMORY
             else if (i =? -2)%Z then IRM_BADVARTYPE
             else if (i =? -3)%Z then IRM_INVALIDARG
             else if (i =? -4)%Z then IRM_INVALIDROW
             else if (i =? -5)%Z then IRM_INVALIDCOL
             else if (i =? -6)%Z then IRM_BADINSTANCE
             else IRM_FAIL
           else IRM_OK in
  if negb positive_ok && (0 <? i)%Z then IRM_FAIL else r.

Section settings.
  Context {D : Type} (zero inactive : D).

  (** What the setters and getters touch of a chemistry cell: temperature and pressure of its
      solution, and, for a gas phase, whether it is of fixed pressure and its total pressure. *)
  Record cell := Cell { c_sol : option (D * D); c_gas : option (bool * D) }.

  Inductive units := USolution | UPP | UExchange | USurface | UGas | USS | UKinetics.
  Inductive vec := VPorosity | VRepVol | VSaturation | VDensity | VTemperature | VPressure.
  Inductive flag := FPartitionUZ | FRebalanceByCell | FSelectedOutput | FSpeciesSave | FComponentH2O
    | FUseDensityVolume | FPrintWorkers | FPrintInitial | FPrintUtility.
  Inductive scalar := STime | STimeStep | STimeConversion | SRebalanceFraction.
  Global Instance units_dec : EqDecision units. Proof. solve_decision. Defined.
  Global Instance vec_dec : EqDecision vec. Proof. solve_decision. Defined.
  Global Instance flag_dec : EqDecision flag. Proof. solve_decision. Defined.
  Global Instance scalar_dec : EqDecision scalar. Proof. solve_decision. Defined.

  (** The fields concerned; fields of one kind are kept as a function of the field's name. *)
  Record settings := Settings {
    s_mode : Z;
    s_units : units -> Z;
    s_vec : vec -> list D;
    s_mask : list Z;
    s_flag : flag -> bool;
    s_scalar : scalar -> D;
    s_old_sat : list D;
    s_cells : list cell
  }.
  Definition upd {K V} `{EqDecision K} (k : K) (v : V) (f : K -> V) : K -> V :=
    fun x => if decide (x = k) then v else f x.
  Definition set_mode (m : Z) (s : settings) : settings :=
    Settings m (s_units s) (s_vec s) (s_mask s) (s_flag s) (s_scalar s) (s_old_sat s) (s_cells s).
  Definition set_unit k u (s : settings) : settings :=
    Settings (s_mode s) (upd k u (s_units s)) (s_vec s) (s_mask s) (s_flag s) (s_scalar s) (s_old_sat s) (s_cells s).
  Definition set_vec k l (s : settings) : settings :=
    Settings (s_mode s) (s_units s) (upd k l (s_vec s)) (s_mask s) (s_flag s) (s_scalar s) (s_old_sat s) (s_cells s).
  Definition set_mask m (s : settings) : settings :=
    Settings (s_mode s) (s_units s) (s_vec s) m (s_flag s) (s_scalar s) (s_old_sat s) (s_cells s).
  Definition set_flag k b (s : settings) : settings :=
    Settings (s_mode s) (s_units s) (s_vec s) (s_mask s) (upd k b (s_flag s)) (s_scalar s) (s_old_sat s) (s_cells s).
  Definition set_scalar k d (s : settings) : settings :=
    Settings (s_mode s) (s_units s) (s_vec s) (s_mask s) (s_flag s) (upd k d (s_scalar s)) (s_old_sat s) (s_cells s).
  Definition set_old_sat l (s : settings) : settings :=
    Settings (s_mode s) (s_units s) (s_vec s) (s_mask s) (s_flag s) (s_scalar s) l (s_cells s).
  Definition set_cells c (s : settings) : settings :=
    Settings (s_mode s) (s_units s) (s_vec s) (s_mask s) (s_flag s) (s_scalar s) (s_old_sat s) c.

  (** std::vector::resize *)
  Definition resize_vec (n : nat) (d : D) (l : list D) : list D := take n l ++ replicate (n - length l) d.

  (** SetUnitsSolution (12480-12508) accepts 1..3, the others (12356-12477, 12511-12570) 0..2. *)
  Definition unit_ok (k : units) (u : Z) : bool :=
    match k with USolution => (0 <? u)%Z && (u <? 4)%Z | _ => (0 <=? u)%Z && (u <? 3)%Z end.
  Definition set_units (k : units) (u : Z) (s : settings) : settings * reply :=
    if unit_ok k u then (set_unit k u s, return_handler (s_mode s) IRM_OK)
    else (s, return_handler (s_mode s) IRM_INVALIDARG).

  (** SetErrorHandlerMode, lines 11723-11762, compiled with OpenMP or not: the mode is reset to 0
      before the argument is looked at, and ReturnHandler sees the new mode. *)
  Definition set_error_mode (openmp : bool) (i : Z) (s : settings) : settings * reply :=
    if (i <? 0)%Z then (set_mode 0 s, return_handler 0 IRM_INVALIDARG)
    else if (i <? 3)%Z then (set_mode i s, return_handler i IRM_OK)
    else if openmp && (i =? 3)%Z then (set_mode i s, return_handler i IRM_OK)
    else (set_mode 0 s, return_handler 0 IRM_INVALIDARG).

  Context (nxyz : nat) (back : list (list nat)).

  (** SetGeneric, lines 11816-11847: the whole source vector is stored, however long. ErrorHandler
      throws on IRM_INVALIDARG and the handler turns it into IRM_FAIL. *)
  Definition set_generic (k : vec) (l : list D) (s : settings) : settings * irm_result :=
    if length l <? nxyz then (s, IRM_FAIL) else (set_vec k l s, IRM_OK).

  (** The loops of SetTemperature (12259-12271) and SetPressure (11974-11994) over the chemistry
      cells [j] of all workers (each belongs to one worker, Partition): the value of the first grid
      cell mapped to [j]. The cells are handled by different threads, but no two handle the same
      cell, so they are taken in order here. A missing index is undefined. *)
  Definition push_temperature (t : D) (c : cell) : cell :=
    Cell (match c_sol c with Some (_, p) => Some (t, p) | None => None end) (c_gas c).
  Definition push_pressure (p : D) (c : cell) : cell :=
    Cell (match c_sol c with Some (t, _) => Some (t, p) | None => None end)
         (match c_gas c with Some (true, _) => Some (true, p) | g => g end).
  Fixpoint push (f : D -> cell -> cell) (values : list D) (bs : list (list nat)) (cs : list cell)
      {struct cs} : option (list cell) :=
    match cs with
    | [] => Some []
    | c :: cs' =>
        match bs with
        | [] => None
        | b :: bs' =>
            match b with
            | [] => None
            | i :: _ =>
                match values !! i with
                | None => None
                | Some v =>
                    match push f values bs' cs' with
                    | None => None
                    | Some r => Some (f v c :: r)
                    end
                end
            end
        end
    end.
  (** SetPorosity 11923-11931, SetRepresentativeVolume 12121-12127, SetSaturationUser 12140-12147,
      SetDensityUser 11586-11594, SetTemperature 12229-12281, SetPressure 11943-12005. *)
  Definition set_property (k : vec) (l : list D) (s : settings) : settings * reply :=
    let r := set_generic k l s in
    match r.2 with
    | IRM_OK =>
        let f := match k with
                 | VTemperature => Some push_temperature
                 | VPressure => Some push_pressure
                 | _ => None
                 end in
        match f with
        | None => (r.1, return_handler (s_mode s) IRM_OK)
        | Some f =>
            match push f l back (s_cells s) with
            | None => (r.1, Broken)
            | Some cs => (set_cells cs r.1, return_handler (s_mode s) IRM_OK)
            end
        end
    | e => (r.1, return_handler (s_mode s) e)
    end.

  (** SetPrintChemistryMask, lines 12044-12075 *)
  Definition set_print_mask (m : list Z) (s : settings) : settings * reply :=
    if length m <? nxyz then (s, return_handler (s_mode s) IRM_INVALIDARG)
    else (set_mask m s, return_handler (s_mode s) IRM_OK).

  (** The flag setters: SetPartitionUZSolids 11891-11921 (the old saturations get their size, and
      new entries the value 1), SetRebalanceByCell 12077-12098, SetSelectedOutputOn 12170-12193,
      SetSpeciesSaveOn 12197-12225, SetComponentH2O 11046-11070, UseSolutionDensityVolume,
      SetPrintChemistryOn 12009-12041 (three at once). They return IRM_OK or go through
      ReturnHandler with IRM_OK. *)
  Definition set_bool (one : D) (k : flag) (b : bool) (s : settings) : settings * reply :=
    let s1 := set_flag k b s in
    let s2 := match k with
              | FPartitionUZ => if b then set_old_sat (resize_vec nxyz one (s_old_sat s)) s1 else s1
              | _ => s1
              end in
    (s2, Returned IRM_OK).
  Definition set_print_on (w i u : bool) (s : settings) : settings * reply :=
    (set_flag FPrintUtility u (set_flag FPrintInitial i (set_flag FPrintWorkers w s)), Returned IRM_OK).
  (** SetTime, SetTimeStep, SetTimeConversion, SetRebalanceFraction: no validation. *)
  Definition set_number (k : scalar) (d : D) (s : settings) : settings * reply :=
    (set_scalar k d s, Returned IRM_OK).

  (** GetPressure (4385-4422) and GetTemperature (5279-5317): the root vector is resized to [nxyz]
      (new entries get the inactive value), then the value of each chemistry cell's solution is
      written to all its grid cells; a missing solution only writes a message. The root vector
      itself is returned. *)
  Fixpoint write_all (is : list nat) (v : D) (l : list D) : option (list D) :=
    match is with
    | [] => Some l
    | i :: is' => if i <? length l then write_all is' v (<[i := v]> l) else None
    end.
  Fixpoint gather (f : D * D -> D) (bs : list (list nat)) (cs : list cell) (l : list D)
      {struct cs} : option (list D) :=
    match cs with
    | [] => Some l
    | c :: cs' =>
        match c_sol c with
        | None => gather f (drop 1 bs) cs' l
        | Some v =>
            match bs with
            | [] => None
            | b :: bs' => match write_all b (f v) l with None => None | Some l' => gather f bs' cs' l' end
            end
        end
    end.
  Definition get_property (k : vec) (s : settings) : settings * option (list D) :=
    let f := match k with VPressure => Some snd | VTemperature => Some fst | _ => None end in
    match f with
    | None => (s, Some (s_vec s k))
    | Some f =>
        match gather f back (s_cells s) (resize_vec nxyz inactive (s_vec s k)) with
        | None => (s, None)
        | Some l => (set_vec k l s, Some l)
        end
    end.

  (** One call, and a history of calls. *)
  Inductive call :=
  | CUnits (k : units) (u : Z) | CMode (i : Z) | CVec (k : vec) (l : list D) | CMask (m : list Z)
  | CFlag (k : flag) (b : bool) | CPrint (w i u : bool) | CNumber (k : scalar) (d : D) | CGet (k : vec).
  Definition do_call (openmp : bool) (one : D) (c : call) (s : settings) : settings * reply :=
    match c with
    | CUnits k u => set_units k u s
    | CMode i => set_error_mode openmp i s
    | CVec k l => set_property k l s
    | CMask m => set_print_mask m s
    | CFlag k b => set_bool one k b s
    | CPrint w i u => set_print_on w i u s
    | CNumber k d => set_number k d s
    | CGet k => let r := get_property k s in (r.1, match r.2 with Some _ => Returned IRM_OK | None => Broken end)
    end.
  Definition do_calls (openmp : bool) (one : D) (cs : list call) (s : settings) : settings :=
    fold_left (fun s c => (do_call openmp one c s).1) cs s.
End settings.
Arguments cell : clear implicits.
Arguments settings : clear implicits.
Arguments call : clear implicits.
