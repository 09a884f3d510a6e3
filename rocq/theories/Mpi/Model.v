(** The MPI build of PhreeqcRM: what the root and the workers do and send for each method. *)
From Coq Require Import ZArith Ascii.
From stdpp Require Import prelude gmap.
From Verif.Base Require Import Result.
From Verif.Partition Require Import EndCells.
From Verif.Mapping Require Import Model.
From Verif.Mpi Require Import Comm Methods.
From Verif.Files Require Model.
Local Open Scope Z_scope.

(** Members that have the same value on all processes: a number, a flag (sent as 0 or 1) or an
    integer, or the three flags of SetPrintChemistryOn *)
Inductive setting :=
| Time | TimeStep | TimeConversion | RebalanceFraction
| RebalanceByCell | ComponentH2O | PartitionUZ | SelectedOutputOn | SpeciesSave | UseDensityVolume
| PrintOn | UExchange | UGas | UKinetics | UPP | USolution | USS | USurface | ErrorMode.
Global Instance setting_dec : EqDecision setting. Proof. solve_decision. Defined.

(** Vectors with one number per grid cell on the root (xxx_root) and one per own cell on every
    process (xxx_worker) *)
Inductive vec := Density | Porosity | RV | Saturation | OldSaturation | Tempc | Pressure.
Global Instance vec_dec : EqDecision vec. Proof. solve_decision. Defined.

(** Values that a getter reads from the solution of a cell *)
Inductive quantity := QTemperature | QPressure | QVolume | QViscosity | QDensity | QSaturation.
Inductive state_op := Save | Apply | Delete.

Section model.
  Context {D X : Type}.
  Notation msg := (msg D).
  Notation prog := (prog D).

  (** One process. [p_map]: the mapping and the ranges of all processes, [nthreads] being the number
      of processes; the workers do not fill [forward]. [p_saved]: the ranges of the saved states.
      [p_check]: need_error_check. [p_err]: phreeqcrm_error_string. [p_so]: what the caller's vector
      for the selected output held. [p_x]: the IPhreeqc instances. *)
  Record ps := PS {
    p_map : mapping_state;
    p_val : setting -> msg;
    p_prefix : list ascii;
    p_root : vec -> list D;
    p_work : vec -> list D;
    p_mask_root : list Z;
    p_mask_work : list Z;
    p_saved : gmap Z (list Z * list Z);
    p_check : bool;
    p_err : list ascii;
    p_x : X;
  }.
  Definition with_map m (s : ps) := PS m (p_val s) (p_prefix s) (p_root s) (p_work s) (p_mask_root s) (p_mask_work s) (p_saved s) (p_check s) (p_err s) (p_x s).
  Definition with_val v (s : ps) := PS (p_map s) v (p_prefix s) (p_root s) (p_work s) (p_mask_root s) (p_mask_work s) (p_saved s) (p_check s) (p_err s) (p_x s).
  Definition with_prefix t (s : ps) := PS (p_map s) (p_val s) t (p_root s) (p_work s) (p_mask_root s) (p_mask_work s) (p_saved s) (p_check s) (p_err s) (p_x s).
  Definition with_root f (s : ps) := PS (p_map s) (p_val s) (p_prefix s) f (p_work s) (p_mask_root s) (p_mask_work s) (p_saved s) (p_check s) (p_err s) (p_x s).
  Definition with_work f (s : ps) := PS (p_map s) (p_val s) (p_prefix s) (p_root s) f (p_mask_root s) (p_mask_work s) (p_saved s) (p_check s) (p_err s) (p_x s).
  Definition with_mask_root l (s : ps) := PS (p_map s) (p_val s) (p_prefix s) (p_root s) (p_work s) l (p_mask_work s) (p_saved s) (p_check s) (p_err s) (p_x s).
  Definition with_mask_work l (s : ps) := PS (p_map s) (p_val s) (p_prefix s) (p_root s) (p_work s) (p_mask_root s) l (p_saved s) (p_check s) (p_err s) (p_x s).
  Definition with_saved m (s : ps) := PS (p_map s) (p_val s) (p_prefix s) (p_root s) (p_work s) (p_mask_root s) (p_mask_work s) m (p_check s) (p_err s) (p_x s).
  Definition with_check b (s : ps) := PS (p_map s) (p_val s) (p_prefix s) (p_root s) (p_work s) (p_mask_root s) (p_mask_work s) (p_saved s) b (p_err s) (p_x s).
  Definition with_err t (s : ps) := PS (p_map s) (p_val s) (p_prefix s) (p_root s) (p_work s) (p_mask_root s) (p_mask_work s) (p_saved s) (p_check s) t (p_x s).
  Definition with_x x (s : ps) := PS (p_map s) (p_val s) (p_prefix s) (p_root s) (p_work s) (p_mask_root s) (p_mask_work s) (p_saved s) (p_check s) (p_err s) x.

  Definition upd {K} `{EqDecision K} {V} (f : K -> V) (k : K) (v : V) : K -> V :=
    fun k' => if decide (k' = k) then v else f k'.

  (** What a process does by itself. [l_eqb]: == on double; [l_pos]: > 0.0. [l_value]: the
      value a getter reads from a cell. [l_set_cells]: Set_tc/Set_patm on the cells from a number on.
      [l_conc]: one component of the concentrations of a cell, from the instances, whether the
      calculated density and volume are used, and the density, porosity, representative volume and
      saturation of the cell (cxxSolution2concentration); [l_set_conc]: the reverse. [l_species]: a
      species concentration. [l_state]: StateSave/Apply/Delete on the instance. [l_run]: RunString on
      the worker, initial and utility instances: new instances, their three codes, the error string of
      the worker. [l_missing]: the cell has no solution. [l_run_cells]: RunCellsThread(0): new
      instances, code, error string, output. [l_times]: the time per cell, or that of every cell.
      [l_plan]: the new ranges the root chooses from the times of all, with an error code.
      [l_move]: what moving the cells does to the own instances (the messages of these transfers are
      not modelled here). [l_table]: rows, columns and numbers of a selected output; [l_current]: the
      number of the current one. [l_report]: what ReturnHandler adds to the error string. [l_entity]:
      the raw text of a reactant of the worker instance, with those of the unsaturated zone if asked
      for (phreeqc2cxxStorageBin, Add_uz, dump_raw). [l_end]: RunString of END on the worker instance. *)
  Record local := Local {
    l_eqb : D -> D -> bool;
    l_pos : D -> bool;
    l_zero : D;
    l_one : D;
    l_inactive : D;   (* INACTIVE_CELL_VALUE *)
    l_value : quantity -> X -> Z -> D;
    l_set_cells : vec -> Z -> list D -> X -> X;
    l_ncomp : nat;
    l_conc : X -> (setting -> msg) -> D * D * D * D -> Z -> nat -> D;
    l_set_conc : X -> (setting -> msg) -> D * D * D * D -> Z -> list D -> X;
    l_nspec : nat;
    l_species : X -> Z -> nat -> D;
    l_state : state_op -> Z -> X -> X;
    l_run : bool * bool * bool -> list ascii -> X -> X * (Z * Z * Z) * list ascii;
    l_missing : X -> Z -> bool;
    l_run_cells : ps -> X * Z * list ascii * list ascii;
    l_times : bool -> list Z -> X -> list D;
    l_plan : ps -> list msg -> Z * list Z * list Z;
    l_move : list Z -> list Z -> X -> X;
    l_table : X -> Z -> option (nat * nat * list D);
    l_current : X -> Z;
    l_report : irm_result -> list ascii;
    l_entity : X -> bool -> Files.Model.kind -> Z -> option (list ascii);
    l_end : X -> X;
  }.
  Context (L : local).

  (** The parts of the methods are written with what follows them as last argument, [T] being the
      type of the final result of the process. *)

  (** ** Own cells *)
  Definition tasks (s : ps) : nat := length (start_cell (p_map s)).
  (** end_cell[n] - start_cell[n] + 1; none if negative or there is no such process *)
  Definition range_len (m : mapping_state) (n : nat) : option nat :=
    match start_cell m !! n, end_cell m !! n with
    | Some b, Some e => if decide (0 <= e - b + 1) then Some (Z.to_nat (e - b + 1)) else None
    | _, _ => None
    end.
  Definition range_start (m : mapping_state) (n : nat) : Z := default 0 (start_cell m !! n).
  Definition own_cells (m : mapping_state) (n : nat) : list Z :=
    match range_len m n with
    | Some k => map (fun l => range_start m n + Z.of_nat l) (seq 0 k)
    | None => []
    end.

  (** d_array of ScatterNchem (10928-10935, 10973-10981): for every cell the value of its first grid
      cell; none if an index is out of range *)
  Definition pick {A} (m : mapping_state) (src : list A) : option (list A) :=
    if decide (Z.of_nat (length (backward m)) = count_chemistry m) then
      mapM (fun c => match c with
                     | z :: _ => if decide (0 <= z) then src !! Z.to_nat z else None
                     | [] => None
                     end) (backward m)
    else None.
  (** The parts of it for the processes (send_counts, send_displs: 10948-10953) *)
  Definition piece {A} (m : mapping_state) (d : list A) (n : nat) : option (list A) :=
    match range_len m n with
    | Some k =>
        let b := range_start m n in
        if decide (0 <= b /\ (Z.to_nat b + k <= length d)%nat) then Some (take k (drop (Z.to_nat b) d)) else None
    | None => None
    end.
  Definition pieces {A} (m : mapping_state) (d : list A) : option (list (list A)) :=
    mapM (piece m d) (seq 0 (length (start_cell m))).

  (** src/PhreeqcRM.cpp 10920-10963 (double) and 10966-11008 (int) *)
  Definition scatter_root {A T} (wrap : list A -> msg) (t : dtype) (m : mapping_state) (src : list A)
      (k : msg -> prog T) : prog T :=
    match pick m src with
    | Some d =>
        match pieces m d, range_len m 0 with
        | Some cs, Some n => Scatter (map wrap cs) t n k
        | _, _ => Undef
        end
    | None => Undef
    end.
  Definition scatter_worker {T} (t : dtype) (m : mapping_state) (n : nat) (k : msg -> prog T) : prog T :=
    match range_len m n with Some len => Scatter [] t len k | None => Undef end.
  Definition nums_of (v : msg) : list D := match v with Nums l => l | _ => [] end.
  Definition ints_of (v : msg) : list Z := match v with Ints l => l | _ => [] end.
  Definition text_of (v : msg) : list ascii := match v with Text l => l | _ => [] end.
  Definition int_of (v : msg) : Z := match v with Ints [z] => z | _ => 0 end.

  Definition scatter_vec {T} (root : bool) (n : nat) (v : vec) (s : ps) (k : ps -> prog T) : prog T :=
    let k' := fun r => k (with_work (upd (p_work s) v (nums_of r)) s) in
    if root then scatter_root Nums TNum (p_map s) (p_root s v) k'
    else scatter_worker TNum (p_map s) n k'.
  Definition scatter_mask {T} (root : bool) (n : nat) (s : ps) (k : ps -> prog T) : prog T :=
    let k' := fun r => k (with_mask_work (ints_of r) s) in
    if root then scatter_root Ints TInt (p_map s) (p_mask_root s) k'
    else scatter_worker TInt (p_map s) n k'.

  (** dst[x] = y for the pairs; none if out of range *)
  Fixpoint store {A} (ws : list (Z * A)) (dst : list A) : option (list A) :=
    match ws with
    | [] => Some dst
    | (x, y) :: ws' =>
        if decide (0 <= x < Z.of_nat (length dst)) then store ws' (<[Z.to_nat x := y]> dst) else None
    end.
  (** vector::resize *)
  Definition resize {A} (n : nat) (x : A) (l : list A) : list A := take n l ++ replicate (n - length l) x.

  (** The receive buffer of MPI_Gatherv: the parts at their displacements *)
  Definition gathered (m : mapping_state) (w : nat) (vs : list msg) : option (list D) :=
    let buf := replicate (Z.to_nat (count_chemistry m) * w) (l_zero L) in
    foldl (fun b nv =>
             match b with
             | Some b' =>
                 let d := range_start m (fst nv) * Z.of_nat w in
                 if decide (0 <= d /\ (Z.to_nat d + length (snd nv) <= length b')%nat)
                 then Some (list_inserts (Z.to_nat d) (snd nv) b') else None
             | None => None
             end) (Some buf) (imap (fun n v => (n, nums_of v)) vs).
  (** src/PhreeqcRM.cpp 3295-3307 and 3532-3560: the values of the cells ([w] per cell) to all grid
      cells of each. Grid cells without a cell keep what the destination had. *)
  Definition spread (m : mapping_state) (w : nat) (buf dst : list D) : option (list D) :=
    match mapM (fun jc => mapM (fun x => mapM (fun i =>
                              match buf !! (fst jc * w + i)%nat with
                              | Some y => Some (Z.of_nat i * nxyz m + x, y)
                              | None => None
                              end) (seq 0 w)) (snd jc))
            (imap (fun j c => (j, c)) (backward m)) with
    | Some ws => store (concat (concat ws)) dst
    | None => None
    end.
  (** All processes give [w] values per own cell; the root fills [dst] *)
  Definition gather_cells {A} (root : bool) (n : nat) (s : ps) (w : nat) (vals : list D) (dst : list D)
      (k : list D -> prog A) : prog A :=
    let m := p_map s in
    if root then
      match mapM (range_len m) (seq 0 (tasks s)) with
      | Some lens =>
          Gather (Nums vals) (map (fun len => (len * w)%nat) lens)
            (fun vs => match gathered m w vs with
                       | Some buf => match spread m w buf dst with Some r => k r | None => Undef end
                       | None => Undef
                       end)
      | None => Undef
      end
    else Gather (Nums vals) [] (fun _ => k []).

  (** ** Errors *)
  (** The root receives two messages, a length and a text, from every process whose flag is set. *)
  Fixpoint receive_texts {A} (flags : list bool) (n : nat) (acc : list (list ascii))
      (k : list (list ascii) -> prog A) : prog A :=
    match flags with
    | [] => k acc
    | true :: r =>
        Recv n TInt 1 (fun z => Recv n TText (Z.to_nat (int_of z)) (fun t => receive_texts r (S n) (acc ++ [text_of t]) k))
    | false :: r => receive_texts r (S n) acc k
    end.
  Definition send_text {A} (t : list ascii) (k : prog A) : prog A :=
    Send (Ints [Z.of_nat (length t)]) (Send (Text t) k).

  Definition codes_of (vs : list msg) : list Z := map int_of vs.
  Definition failures (codes : list Z) : Z := Z.of_nat (length (filter (fun c => c <> 0) codes)).
  (** src/PhreeqcRM.cpp 5404-5475. [code]: r_vector[0] of this process; the other entries are not
      looked at. The result is whether no process failed; the root adds the texts of the processes to
      its error string (each after a line with the number of the process). *)
  Definition handle {T} (root : bool) (code : Z) (text : list ascii) (s : ps) (k : ps -> bool -> prog T) : prog T :=
    if root then
      Gather (Ints [code]) (replicate (tasks s) 1%nat) (fun vs =>
        let codes := codes_of vs in
        Bcast (Ints [failures codes]) (fun _ =>
          if decide (failures codes = 0) then k s true
          else
            receive_texts (map (fun c => bool_decide (c <> 0)) (tail codes)) 1 [] (fun ts =>
              Barrier (k (with_err (p_err s ++ (if decide (code <> 0) then text else []) ++ concat ts) s) false))))
    else
      Gather (Ints [code]) [] (fun _ =>
        Bcast (Ints [0]) (fun v =>
          if decide (int_of v = 0) then k s true
          else if decide (code <> 0) then send_text text (Barrier (k s false))
          else Barrier (k s false))).

  (** ReturnHandler (9633-9662), modes other than 2; every method begins by clearing the error string. *)
  Definition clear (s : ps) : ps := with_err [] s.
  Definition returned (r : irm_result) (s : ps) : ps :=
    if decide (r = IRM_OK) then s else with_err (p_err s ++ l_report L r) s.

  (** ** Calls *)
  Inductive call :=
  | SetNum (k : setting) (x : D)             (* SetTime, SetTimeStep, SetTimeConversion, SetRebalanceFraction *)
  | SetFlag (k : setting) (b : bool)
  | SetPrint (a b c : bool)
  | SetInt (k : setting) (z : Z)             (* SetUnitsXxx, SetErrorHandlerMode *)
  | SetPrefix (t : list ascii)
  | SetVec (v : vec) (l : list D)
  | SetMask (l : list Z)
  | Get (q : quantity) (old : list D)        (* [old]: what the vector to be filled held *)
  | GetConc (old : list D)
  | SetConc (l : list D)
  | GetSpecies (old : list D)
  | State (o : state_op) (i : Z)
  | RunInput (w i u : bool) (t : list ascii) (* RunString *)
  | Cells                                    (* RunCells *)
  | MapCells (g : list Z)                    (* CreateMapping *)
  | SelOut (old : list D)                    (* GetSelectedOutput *)
  | ErrString                                (* GetErrorString *)
  (* DumpModule. [opens]: the file can be opened; [fails k]: writing the piece number [k] fails; [old]:
     what the file holds, nothing if there is none. *)
  | Dump (on append opens : bool) (fails : nat -> bool) (old : list ascii).
  Inductive answer := Code (r : irm_result) | Vector (r : irm_result) (l : list D) | String (t : list ascii)
  | File (r : irm_result) (t : list ascii).  (* [t]: what the dump file holds afterwards *)

  Definition bit (b : bool) : Z := if b then 1 else 0.
  Definition flag (s : ps) (k : setting) : bool := match p_val s k with Ints [0] => false | _ => true end.
  Definition same (a b : msg) : bool :=
    match a, b with
    | Ints l, Ints l' => bool_decide (l = l')
    | Nums [x], Nums [y] => l_eqb L x y
    | _, _ => false
    end.

  Definition method_of_setting (k : setting) : collective_method :=
    match k with
    | Time => SetTime | TimeStep => SetTimeStep | TimeConversion => SetTimeConversion
    | RebalanceFraction => SetRebalanceFraction | RebalanceByCell => SetRebalanceByCell
    | ComponentH2O => SetComponentH2O | PartitionUZ => SetPartitionUZSolids
    | SelectedOutputOn => SetSelectedOutputOn | SpeciesSave => SetSpeciesSaveOn
    | UseDensityVolume => UseSolutionDensityVolume | PrintOn => SetPrintChemistryOn
    | UExchange => SetUnitsExchange | UGas => SetUnitsGasPhase | UKinetics => SetUnitsKinetics
    | UPP => SetUnitsPPassemblage | USolution => SetUnitsSolution | USS => SetUnitsSSassemblage
    | USurface => SetUnitsSurface | ErrorMode => SetErrorHandlerMode
    end.
  Definition method_of_vec (v : vec) : collective_method :=
    match v with
    | Density => SetDensityUser | Porosity => SetPorosity | RV => SetRepresentativeVolume
    | Saturation => SetSaturationUser | Tempc => SetTemperature | Pressure => SetPressure
    | OldSaturation => SetPartitionUZSolids (* no such method *)
    end.
  Definition method_of_quantity (q : quantity) : collective_method :=
    match q with
    | QTemperature => GetTemperature | QPressure => GetPressure | QVolume => GetSolutionVolume
    | QViscosity => GetViscosity | QDensity => GetDensityCalculated | QSaturation => GetSaturationCalculated
    end.
  Definition method_of_op (o : state_op) : collective_method :=
    match o with Save => StateSave | Apply => StateApply | Delete => StateDelete end.

  (** MPI_Bcast(&method, ...) on the root *)
  Definition announce {A} (m : collective_method) (k : prog A) : prog A :=
    Bcast (Ints [announces m]) (fun _ => k).

  (** The value that the root stores: 12283-12304 and the other setters of numbers and flags keep what
      is given; units 12356-12570; error mode 11736-11757 (without OpenMP) *)
  Definition accepted (k : setting) (v : msg) : bool :=
    match k, v with
    | USolution, Ints [u] => bool_decide (0 < u < 4)
    | (UExchange | UGas | UKinetics | UPP | USS | USurface), Ints [u] => bool_decide (0 <= u < 3)
    | ErrorMode, Ints [i] => bool_decide (0 <= i < 3)
    | _, _ => true
    end.
  Definition stored (k : setting) (old v : msg) : msg :=
    if accepted k v then v else match k with ErrorMode => Ints [0] | _ => old end.

  (** The part of a setter after the announcement, on the root and on a worker. SetPartitionUZSolids
      (11907-11918) goes on to scatter old_saturation_root, which it resizes first. *)
  Definition set_root {T} (f : setting) (v : msg) (s : ps) (k : ps -> answer -> prog T) : prog T :=
    let v' := stored f (p_val s f) v in
    let r := if accepted f v then IRM_OK else IRM_INVALIDARG in
    Bcast v' (fun _ =>
      let s1 := with_val (upd (p_val s) f v') s in
      if decide (f = PartitionUZ) then
        if flag s1 PartitionUZ then
          let old := p_root s1 OldSaturation in
          let n := Z.to_nat (nxyz (p_map s1)) in
          let s2 := if decide (length old = n) then s1
                    else with_root (upd (p_root s1) OldSaturation (resize n (l_one L) old)) s1 in
          scatter_vec true 0 OldSaturation s2 (fun s3 => k s3 (Code r))
        else k s1 (Code r)
      else k (returned r s1) (Code r)).
  Definition set_worker {T} (n : nat) (f : setting) (s : ps) (k : ps -> prog T) : prog T :=
    Bcast (p_val s f) (fun v =>
      let s1 := with_val (upd (p_val s) f v) s in
      if decide (f = PartitionUZ) then
        if flag s1 PartitionUZ then scatter_vec false n OldSaturation s1 k else k s1
      else k s1).
  (** Except for SetComponentH2O, a setter returns at once if the root has the value already. *)
  Definition set_call {T} (f : setting) (v : msg) (s0 : ps) (k : ps -> answer -> prog T) : prog T :=
    let s := clear s0 in
    if (same (p_val s f) v && negb (bool_decide (f = ComponentH2O)))%bool then k s (Code IRM_OK)
    else announce (method_of_setting f) (set_root f v s k).

  (** SetFilePrefix: src/PhreeqcRM.cpp 11780-11813 *)
  Definition prefix_end (s : ps) : ps * irm_result :=
    let r := if decide (p_prefix s = []) then IRM_INVALIDARG else IRM_OK in (returned r s, r).
  Definition prefix_call {T} (t : list ascii) (s0 : ps) (k : ps -> answer -> prog T) : prog T :=
    let s := clear s0 in
    if decide (p_prefix s = t) then k s (Code IRM_OK)
    else announce SetFilePrefix
           (Bcast (Ints [Z.of_nat (length t)]) (fun _ => Bcast (Text t) (fun _ =>
              let '(s', r) := prefix_end (with_prefix t s) in k s' (Code r)))).
  Definition blank : ascii := Ascii.zero.
  Definition prefix_worker {T} (s : ps) (k : ps -> prog T) : prog T :=
    Bcast (Ints [0]) (fun l =>
      Bcast (Text (resize (Z.to_nat (int_of l)) blank (p_prefix s))) (fun t =>
        k (fst (prefix_end (with_prefix (text_of t) s))))).

  (** SetGeneric (11816-11847) and the setters of vectors; SetTemperature (12229-12280) and
      SetPressure (11943-12005) also put the own part into the own cells. *)
  Definition vec_end (n : nat) (v : vec) (s : ps) : ps :=
    match v with
    | Tempc | Pressure => with_x (l_set_cells L v (range_start (p_map s) n) (p_work s v) (p_x s)) s
    | _ => s
    end.
  Definition vec_call {T} (v : vec) (l : list D) (s0 : ps) (k : ps -> answer -> prog T) : prog T :=
    let s := clear s0 in
    if decide (Z.of_nat (length l) < nxyz (p_map s)) then k (returned IRM_FAIL s) (Code IRM_FAIL)
    else
      let s1 := with_root (upd (p_root s) v l) s in
      announce (method_of_vec v) (scatter_vec true 0 v s1 (fun s2 => k (vec_end 0 v s2) (Code IRM_OK))).
  Definition vec_worker {T} (n : nat) (v : vec) (s : ps) (k : ps -> prog T) : prog T :=
    scatter_vec false n v s (fun s2 => k (vec_end n v s2)).

  (** SetPrintChemistryMask (12044-12071): the announcement comes before the check of the length. *)
  Definition mask_call {T} (l : list Z) (s0 : ps) (k : ps -> answer -> prog T) : prog T :=
    let s := clear s0 in
    announce SetPrintChemistryMask
      (if decide (Z.of_nat (length l) < nxyz (p_map s)) then k (returned IRM_INVALIDARG s) (Code IRM_INVALIDARG)
       else scatter_mask true 0 (with_mask_root l s) (fun s2 => k s2 (Code IRM_OK))).

  (** GetTemperature (5243-5275), GetPressure (4350-4382), GetSolutionVolume (4749-4794), GetViscosity
      (5354-5401), GetDensityCalculated (3654-3711), GetSaturationCalculated (4436-4494); a cell
      without a solution is undefined behaviour there and has some value here. *)
  Definition values (q : quantity) (n : nat) (s : ps) : list D :=
    map (fun i => l_value L q (p_x s) i) (own_cells (p_map s) n).
  (** For temperature and pressure the vectors of the object are filled ([old] stands for
      solution_volume_root and viscosity_root, or for the argument of the other two). *)
  Definition kept (q : quantity) (root : bool) (n : nat) (r : list D) (s : ps) : ps :=
    let put v := let s1 := with_work (upd (p_work s) v (values q n s)) s in
                 if root then with_root (upd (p_root s1) v r) s1 else s1 in
    match q with QTemperature => put Tempc | QPressure => put Pressure | _ => s end.
  Definition held (q : quantity) (old : list D) (s : ps) : list D :=
    match q with QTemperature => p_root s Tempc | QPressure => p_root s Pressure | _ => old end.
  Definition padding (q : quantity) : D :=
    match q with QTemperature | QPressure => l_zero L | _ => l_inactive L end.
  Definition get_call {T} (q : quantity) (old : list D) (s0 : ps) (k : ps -> answer -> prog T) : prog T :=
    let s := clear s0 in
    announce (method_of_quantity q)
      (gather_cells true 0 s 1 (values q 0 s) (resize (Z.to_nat (nxyz (p_map s))) (padding q) (held q old s))
         (fun r => k (kept q true 0 r s) (Vector IRM_OK r))).
  Definition get_worker {T} (n : nat) (q : quantity) (s : ps) (k : ps -> prog T) : prog T :=
    gather_cells false n s 1 (values q n s) [] (fun _ => k (kept q false n [] s)).

  (** The four numbers of the [l]-th own cell; none if a vector is too short *)
  Definition params (s : ps) (l : nat) : option (D * D * D * D) :=
    match p_work s Density !! l, p_work s Porosity !! l, p_work s RV !! l, p_work s Saturation !! l with
    | Some d, Some p, Some v, Some t => Some (d, p, v, t)
    | _, _, _, _ => None
    end.
  (** GetConcentrations: src/PhreeqcRM.cpp 3457-3566. The vectors are read also if the calculated
      density and volume are used (the code does not read them then). *)
  Definition concs (n : nat) (s : ps) : option (list D) :=
    (fun l => concat l) <$> mapM (fun li =>
                 match params s (fst li) with
                 | Some p => Some (map (fun c => l_conc L (p_x s) (p_val s) p (snd li) c) (seq 0 (l_ncomp L)))
                 | None => None
                 end) (imap (fun l i => (l, i)) (own_cells (p_map s) n)).
  Definition conc_root {A} (s : ps) (k : list D -> prog A) : prog A :=
    match concs 0 s with
    | Some vals =>
        gather_cells true 0 s (l_ncomp L) vals
          (replicate (Z.to_nat (nxyz (p_map s)) * l_ncomp L) (l_inactive L)) k
    | None => Undef
    end.
  Definition conc_call {T} (s0 : ps) (k : ps -> answer -> prog T) : prog T :=
    let s := clear s0 in
    announce GetConcentrations (conc_root s (fun r => k s (Vector IRM_OK r))).
  Definition conc_worker {T} (n : nat) (s : ps) (k : ps -> prog T) : prog T :=
    match concs n s with
    | Some vals => gather_cells false n s (l_ncomp L) vals [] (fun _ => k s)
    | None => Undef
    end.

  (** SetConcentrations: src/PhreeqcRM.cpp 11072-11141. [t] is not checked: an index out of range is
      undefined. *)
  Definition conc_pick (m : mapping_state) (t : list D) : option (list (list D)) :=
    if decide (Z.of_nat (length (backward m)) = count_chemistry m) then
      mapM (fun c => match c with
                     | z :: _ => mapM (fun k => let x := Z.of_nat k * nxyz m + z in
                                                if decide (0 <= x) then t !! Z.to_nat x else None) (seq 0 (l_ncomp L))
                     | [] => None
                     end) (backward m)
    else None.
  Definition conc_store (n : nat) (vals : list D) (s : ps) : option ps :=
    foldl (fun s' li =>
             match s', params s (fst li) with
             | Some s1, Some p =>
                 Some (with_x (l_set_conc L (p_x s1) (p_val s) p (snd li)
                                 (take (l_ncomp L) (drop (fst li * l_ncomp L) vals))) s1)
             | _, _ => None
             end) (Some s) (imap (fun l i => (l, i)) (own_cells (p_map s) n)).
  Definition setconc_call {T} (t : list D) (s0 : ps) (k : ps -> answer -> prog T) : prog T :=
    let s := clear s0 in
    match conc_pick (p_map s) t with
    | Some d =>
        match pieces (p_map s) d, range_len (p_map s) 0 with
        | Some cs, Some len =>
            announce SetConcentrations
              (Scatter (map (fun c => Nums (concat c)) cs) TNum (len * l_ncomp L) (fun v =>
                 match conc_store 0 (nums_of v) s with Some s1 => k s1 (Code IRM_OK) | None => Undef end))
        | _, _ => Undef
        end
    | None => Undef
    end.
  Definition setconc_worker {T} (n : nat) (s : ps) (k : ps -> prog T) : prog T :=
    match range_len (p_map s) n with
    | Some len =>
        Scatter [] TNum (len * l_ncomp L) (fun v =>
          match conc_store n (nums_of v) s with Some s1 => k s1 | None => Undef end)
    | None => Undef
    end.

  (** GetSpeciesConcentrations: src/PhreeqcRM.cpp 4799-4892. The buffer of a worker has the values of
      one species after another. *)
  Definition species_own (n : nat) (s : ps) : list D :=
    concat (map (fun k => map (fun i => l_species L (p_x s) i k) (own_cells (p_map s) n)) (seq 0 (l_nspec L))).
  (** The writes for the cells of one process: 4823-4834 and 4867-4880 *)
  Definition species_put (m : mapping_state) (n : nat) (vals : list D) (dst : list D) : option (list D) :=
    let cs := own_cells m n in
    match mapM (fun li =>
            match backward m !! Z.to_nat (snd li) with
            | Some gs => mapM (fun x => mapM (fun k =>
                            match vals !! (k * length cs + fst li)%nat with
                            | Some y => Some (Z.of_nat k * nxyz m + x, y)
                            | None => None
                            end) (seq 0 (l_nspec L))) gs
            | None => None
            end) (imap (fun l i => (l, i)) cs) with
    | Some ws => store (concat (concat ws)) dst
    | None => None
    end.
  Fixpoint species_receive {A} (m : mapping_state) (ns : list nat) (dst : list D) (k : list D -> prog A) : prog A :=
    match ns with
    | [] => k dst
    | n :: r =>
        match range_len m n with
        | Some len =>
            Recv n TNum (l_nspec L * len) (fun v =>
              match species_put m n (nums_of v) dst with
              | Some dst' => species_receive m r dst' k
              | None => Undef
              end)
        | None => Undef
        end
    end.
  Definition species_root {A} (old : list D) (s : ps) (k : list D -> prog A) : prog A :=
    if flag s SpeciesSave then
      match species_put (p_map s) 0 (species_own 0 s) (resize (l_nspec L * Z.to_nat (nxyz (p_map s))) (l_zero L) old) with
      | Some dst => species_receive (p_map s) (seq 1 (tasks s - 1)) dst k
      | None => Undef
      end
    else k [].
  Definition species_call {T} (old : list D) (s0 : ps) (k : ps -> answer -> prog T) : prog T :=
    let s := clear s0 in
    announce GetSpeciesConcentrations (species_root old s (fun r => k s (Vector IRM_OK r))).
  Definition species_worker {T} (n : nat) (s : ps) (k : ps -> prog T) : prog T :=
    if flag s SpeciesSave then Send (Nums (species_own n s)) (k s) else k s.

  (** StateSave, StateApply, StateDelete: src/PhreeqcRM.cpp 12753-12846. The error string is not
      touched. *)
  Definition state_end (o : state_op) (i : Z) (s : ps) : ps * irm_result :=
    let m := p_map s in
    match o with
    | Save => (with_x (l_state L Save i (p_x s)) (with_saved (<[i := (start_cell m, end_cell m)]> (p_saved s)) s), IRM_OK)
    | Apply =>
        match p_saved s !! i with
        | None => (s, IRM_INVALIDARG)
        | Some (ss, es) =>
            (with_x (l_state L Apply i (p_x s))
               (with_map (MS (nxyz m) (nthreads m) (count_chemistry m) (backward m) (forward m) ss es) s), IRM_OK)
        end
    | Delete =>
        match p_saved s !! i with
        | None => (s, IRM_INVALIDARG)
        | Some _ => (with_x (l_state L Delete i (p_x s)) (with_saved (delete i (p_saved s)) s), IRM_OK)
        end
    end.
  Definition state_call {T} (o : state_op) (i : Z) (s : ps) (k : ps -> answer -> prog T) : prog T :=
    announce (method_of_op o)
      (Bcast (Ints [i]) (fun _ => let '(s', r) := state_end o i s in k s' (Code r))).
  Definition state_worker {T} (o : state_op) (s : ps) (k : ps -> prog T) : prog T :=
    Bcast (Ints [0]) (fun v => k (fst (state_end o (int_of v) s))).

  (** RunString: src/PhreeqcRM.cpp 10647-10729. HandleErrorsInternal gets the code of the worker
      instance only. *)
  Definition run_part {T} (root : bool) (fl : list Z) (t : list ascii) (s : ps) (k : ps -> irm_result -> prog T) : prog T :=
    let on i := bool_decide (fl !! i <> Some 0) in
    let '(x, cs, err) := l_run L (on 0%nat, on 1%nat, on 2%nat) t (p_x s) in
    handle root (cs.1.1) err (with_x x s) (fun s1 b =>
      let r := if b : bool then IRM_OK else IRM_FAIL in
      k (returned r s1) r).
  Definition run_call {T} (w i u : bool) (t : list ascii) (s0 : ps) (k : ps -> answer -> prog T) : prog T :=
    let s := clear s0 in
    let fl := [bit w; bit i; bit u; Z.of_nat (length t); 0] in
    announce RunString
      (Bcast (Ints fl) (fun _ => Bcast (Text t) (fun _ =>
         run_part true fl t s (fun s1 r => k s1 (Code r))))).
  Definition run_worker {T} (s : ps) (k : ps -> prog T) : prog T :=
    Bcast (Ints [0; 0; 0; 0; 0]) (fun f =>
      Bcast (Text (replicate (Z.to_nat (default 0 (ints_of f !! 3%nat))) blank)) (fun t =>
        run_part false (ints_of f) (text_of t) s (fun s1 _ => k s1))).

  (** CheckCells: src/PhreeqcRM.cpp 725-761 (the text of the error is not modelled) *)
  Definition check_code (n : nat) (s : ps) : Z :=
    if decide (Exists (fun i => l_missing L (p_x s) i = true) (own_cells (p_map s) n)) then -7 else 0.
  (** RebalanceLoad and RebalanceLoadPerCell: src/PhreeqcRM.cpp 7698-8092, 8704-9080, without the
      transfers of cells: gather the times, broadcast the code and the new ranges, scatter the vectors
      again if cells moved. The result is false if the root found an error. *)
  Definition rebalances (s : ps) : bool :=
    (bool_decide (1 < Z.of_nat (tasks s)) && bool_decide (Z.of_nat (tasks s) <= count_chemistry (p_map s))
     && match p_val s RebalanceFraction with Nums [x] => l_pos L x | _ => false end)%bool.
  Definition new_ranges (ss es : list Z) (s : ps) : ps :=
    let m := p_map s in
    with_x (l_move L ss es (p_x s))
      (with_map (MS (nxyz m) (nthreads m) (count_chemistry m) (backward m) (forward m) ss es) s).
  Definition scatter_again {T} (root : bool) (n : nat) (s : ps) (k : ps -> prog T) : prog T :=
    scatter_mask root n s (fun s1 =>
    scatter_vec root n Density s1 (fun s2 =>
    scatter_vec root n Porosity s2 (fun s3 =>
    scatter_vec root n RV s3 (fun s4 =>
    scatter_vec root n Saturation s4 (fun s5 =>
    if flag s5 PartitionUZ then scatter_vec root n OldSaturation s5 k else k s5))))).
  Definition rebalanced {T} (root : bool) (n : nat) (ss es : list Z) (s : ps) (k : ps -> bool -> prog T) : prog T :=
    let s1 := new_ranges ss es s in
    if decide (end_cell (p_map s) = es) then k s1 true   (* no cell changes its process *)
    else scatter_again root n s1 (fun s2 => k s2 true).
  Definition rebalance_part {T} (root : bool) (n : nat) (s : ps) (k : ps -> bool -> prog T) : prog T :=
    if rebalances s then
      let mine := Nums (l_times L (flag s RebalanceByCell) (own_cells (p_map s) n) (p_x s)) in
      if root then
        match (if flag s RebalanceByCell then mapM (range_len (p_map s)) (seq 0 (tasks s))
               else Some (replicate (tasks s) 1%nat)) with
        | Some sizes =>
            Gather mine sizes (fun vs =>
              let '(rc, ss, es) := l_plan L s vs in
              Bcast (Ints [rc]) (fun _ =>
                if decide (rc = 0) then
                  Bcast (Ints ss) (fun _ => Bcast (Ints es) (fun _ => rebalanced root n ss es s k))
                else k s false))
        | None => Undef
        end
      else
        Gather mine [] (fun _ => Bcast (Ints [0]) (fun rc =>
          if decide (int_of rc = 0) then
            Bcast (Ints (replicate (tasks s) 0)) (fun ss =>
              Bcast (Ints (replicate (tasks s) 0)) (fun es => rebalanced root n (ints_of ss) (ints_of es) s k))
          else k s false))
    else k s true.

  (** RunCells: src/PhreeqcRM.cpp 9672-9817 after the announcement; the Ith concentrations are not
      modelled (C16). *)
  Definition checked {T} (root : bool) (n : nat) (s : ps) (k : ps -> bool -> prog T) : prog T :=
    if p_check s then
      handle root (check_code n s) [] (with_check false s) (fun s1 b =>
        if b : bool then k s1 true else Barrier (k s1 false))
    else k s true.
  Definition printed (s : ps) : bool :=
    match p_val s PrintOn with Ints (a :: _) => bool_decide (a <> 0) | _ => false end.
  Definition print_part {T} (root : bool) (out : list ascii) (s : ps) (k : ps -> prog T) : prog T :=
    if printed s then
      if root then receive_texts (replicate (tasks s - 1) true) 1 [] (fun _ => k s)
      else send_text out (k s)
    else k s.
  Definition ran (root : bool) (x : X) (s : ps) : ps :=
    let s1 := with_x x s in
    if flag s PartitionUZ then
      let s2 := with_work (upd (p_work s1) OldSaturation (p_work s1 Saturation)) s1 in
      if root then with_root (upd (p_root s2) OldSaturation (p_root s2 Saturation)) s2 else s2
    else s1.
  Definition cells_part {T} (root : bool) (n : nat) (s : ps) (k : ps -> bool -> prog T) : prog T :=
    let '(x, code, err, out) := l_run_cells L s in
    print_part root out (ran root x s) (fun s1 =>
    handle root code err s1 (fun s2 b =>
      if b : bool then
        rebalance_part root n s2 (fun s3 b2 => if b2 : bool then Barrier (k s3 true) else k s3 false)
      else k s2 false)).
  (** The root then fetches the concentrations of the components and of the species, which are
      methods of their own for the workers (9805-9815). *)
  Definition fetch_part {T} (s : ps) (k : ps -> prog T) : prog T :=
    conc_call s (fun s1 _ =>
      if flag s1 SpeciesSave then species_call [] s1 (fun s2 _ => k s2) else k s1).
  Definition cells_call {T} (s0 : ps) (k : ps -> answer -> prog T) : prog T :=
    announce RunCells
      (checked true 0 (clear s0) (fun s1 b =>
         if b : bool then
           cells_part true 0 s1 (fun s2 b2 =>
             let r := if b2 : bool then IRM_OK else IRM_FAIL in
             fetch_part s2 (fun s3 => k (returned r s3) (Code r)))
         else k (returned IRM_FAIL s1) (Code IRM_FAIL))).
  Definition cells_worker {T} (n : nat) (s : ps) (k : ps -> prog T) : prog T :=
    checked false n s (fun s1 b =>
      if b : bool then
        cells_part false n s1 (fun s2 b2 => k (returned (if b2 : bool then IRM_OK else IRM_FAIL) s2))
      else k (returned IRM_FAIL s1)).

  (** CreateMapping: src/PhreeqcRM.cpp 1676-1801. On a worker the number of processes is not compared
      with the number of cells and the forward mapping is not filled. *)
  Definition map_root (g : list Z) (s : ps) : ps * irm_result :=
    let '(m, r) := create_mapping (p_map s) g in (returned r (with_map m s), r).
  Definition map_one (g : list Z) (s : ps) : ps :=
    let m := p_map s in
    let count := find_count g in
    let m1 := MS (nxyz m) (nthreads m) count [] [] (start_cell m) (end_cell m) in
    match scan count g 0 (replicate (Z.to_nat count) []) with
    | None => returned IRM_FAIL (with_map m1 s)
    | Some bwd =>
        let m2 := MS (nxyz m) (nthreads m) count bwd [] (start_cell m) (end_cell m) in
        if decide (Exists (fun l => l = []) bwd) then returned IRM_FAIL (with_map m2 s)
        else match set_end_cells count (nthreads m) with
             | Ret (ss, es) => with_map (MS (nxyz m) (nthreads m) count bwd [] ss es) s
             | _ => returned IRM_FAIL (with_map m2 s)
             end
    end.
  Definition map_call {T} (g : list Z) (s0 : ps) (k : ps -> answer -> prog T) : prog T :=
    let s := clear s0 in
    if decide (Z.of_nat (length g) <> nxyz (p_map s)) then k (returned IRM_FAIL s) (Code IRM_FAIL)
    else announce CreateMapping
           (Bcast (Ints g) (fun _ => let '(s', r) := map_root g s in k s' (Code r))).
  Definition map_worker {T} (s : ps) (k : ps -> prog T) : prog T :=
    Bcast (Ints (replicate (Z.to_nat (nxyz (p_map s))) 0)) (fun g => k (map_one (ints_of g) s)).

  (** GetSelectedOutput: src/PhreeqcRM.cpp 4496-4585. A process without the table sends nothing and
      goes on to HandleErrorsInternal with code 1. *)
  Definition so_put (m : mapping_state) (first : nat) (t : nat * nat * list D) (dst : list D) : option (list D) :=
    let '(nrow, ncol, data) := t in
    match mapM (fun c => mapM (fun r =>
            match backward m !! (first + r)%nat, data !! (c * nrow + r)%nat with
            | Some gs, Some y => Some (map (fun x => (Z.of_nat c * nxyz m + x, y)) gs)
            | _, _ => None
            end) (seq 0 nrow)) (seq 0 ncol) with
    | Some ws => store (concat (concat ws)) dst
    | None => None
    end.
  Fixpoint so_receive {A} (m : mapping_state) (ns : list nat) (first : nat) (dst : list D)
      (k : list D -> prog A) : prog A :=
    match ns with
    | [] => k dst
    | n :: r =>
        Recv n TInt 2 (fun h =>
          match ints_of h with
          | [nr; nc] =>
              Recv n TNum (Z.to_nat nr * Z.to_nat nc) (fun v =>
                match so_put m first (Z.to_nat nr, Z.to_nat nc, nums_of v) dst with
                | Some dst' => so_receive m r (first + Z.to_nat nr)%nat dst' k
                | None => Undef
                end)
          | _ => Undef
          end)
    end.
  Definition so_end {T} (root : bool) (code : Z) (so : list D) (s : ps) (k : ps -> answer -> prog T) : prog T :=
    handle root code [] s (fun s1 b =>
      let r := if b : bool then IRM_OK else IRM_FAIL in k (returned r s1) (Vector r so)).
  Definition so_call {T} (old : list D) (s0 : ps) (k : ps -> answer -> prog T) : prog T :=
    let s := clear s0 in
    let u := l_current L (p_x s) in
    announce GetSelectedOutput
      (Bcast (Ints [u]) (fun _ =>
         if decide (u < 0) then k (returned IRM_FAIL s) (Vector IRM_FAIL old)
         else match l_table L (p_x s) u with
              | None => so_end true 1 old s k
              | Some (nrow, ncol, data) =>
                  let dst := resize (Z.to_nat (nxyz (p_map s)) * ncol) (l_zero L) old in
                  match so_put (p_map s) 0 (nrow, ncol, data) dst with
                  | Some dst' =>
                      so_receive (p_map s) (seq 1 (tasks s - 1)) nrow dst' (fun so => so_end true 0 so s k)
                  | None => Undef
                  end
              end)).
  Definition so_worker {T} (s : ps) (k : ps -> prog T) : prog T :=
    Bcast (Ints [0]) (fun v =>
      let u := int_of v in
      if decide (u < 0) then k (returned IRM_FAIL s)
      else match l_table L (p_x s) u with
           | None => so_end false 1 [] s (fun s1 _ => k s1)
           | Some (nrow, ncol, data) =>
               Send (Ints [Z.of_nat nrow; Z.of_nat ncol])
                 (Send (Nums (take (nrow * ncol) data)) (so_end false 0 [] s (fun s1 _ => k s1)))
           end).

  (** GetErrorString: src/PhreeqcRM.cpp 3713-3765. The error string is not cleared. A text that was
      received has no terminating NUL, and append(errstr) looks for one: undefined unless the text
      has one itself. *)
  Definition c_string (t : list ascii) : option (list ascii) :=
    if decide (blank ∈ t) then Some (take (default O (fst <$> list_find (fun c => c = blank) t)) t) else None.
  Fixpoint err_receive {A} (ns : list nat) (acc : list ascii) (k : list ascii -> prog A) : prog A :=
    match ns with
    | [] => k acc
    | n :: r =>
        Recv n TInt 1 (fun l =>
          if decide (0 < int_of l) then
            Recv n TText (Z.to_nat (int_of l)) (fun t =>
              match c_string (text_of t) with
              | Some t' => err_receive r (acc ++ t') k
              | None => Undef
              end)
          else err_receive r acc k)
    end.
  Definition err_call {T} (s : ps) (k : ps -> answer -> prog T) : prog T :=
    announce GetErrorString
      (err_receive (seq 1 (tasks s - 1)) (p_err s) (fun t => k s (String t))).
  Definition err_worker {T} (s : ps) (k : ps -> prog T) : prog T :=
    Send (Ints [Z.of_nat (length (p_err s))])
      (if decide (0 < Z.of_nat (length (p_err s))) then Send (Text (p_err s)) (k s) else k s).

  (** DumpModule: src/PhreeqcRM.cpp 1985-2225 (NEWDUMP with USE_MPI). The blocks of cells are those of
      the build with threads; the sizes are supposed to fit an int. What is printed on the screen is not
      modelled, nor the texts of the errors. *)
  Definition dump_block : Z := 5000.                 (* 2043 *)
  Definition gz_block : nat := Z.to_nat 4094.        (* 2057 *)
  Definition ranges (m : mapping_state) : list (Z * Z) := zip (start_cell m) (end_cell m).
  Definition blocks_of (m : mapping_state) : nat := Z.to_nat (Files.Model.block_count dump_block (ranges m)).
  (** 2079-2116: the text of the cells of process [n] in block [ib]; the other processes only count *)
  Definition dump_text (n : nat) (s : ps) (ib : nat) : list ascii :=
    match ranges (p_map s) !! n with
    | Some r =>
        Files.Model.worker_text (fun it => l_entity L (p_x s) (flag s PartitionUZ) it.1.2 it.2)
          (Files.Model.block_items dump_block n r.1 r.2 ib)
    | None => []
    end.
  (** 2117-2131, 2170-2182: the root writes a text; [kf]: the number of pieces written before, and the
      file *)
  Definition dump_write (fails : nat -> bool) (kf : nat * list ascii) (t : list ascii)
      : nat * list ascii * irm_result :=
    let ps := Files.Model.pieces (length t) gz_block t in
    let r := Files.Model.write_pieces fails kf.1 ps kf.2 in
    ((kf.1 + length ps)%nat, List.last (kf.2 :: r.1) [], r.2).
  (** 2146-2184: the texts of the others in turn. An error is thrown, out of the loops. *)
  Fixpoint dump_receive {A} (fails : nat -> bool) (ns : list nat) (kf : nat * list ascii)
      (bad : list ascii -> prog A) (good : nat * list ascii -> prog A) : prog A :=
    match ns with
    | [] => good kf
    | n :: r =>
        Recv n TInt 1 (fun z => Recv n TText (Z.to_nat (int_of z)) (fun t =>
          let '(kf', c) := dump_write fails kf (text_of t) in
          if decide (c = IRM_OK) then dump_receive fails r kf' bad good else bad kf'.2))
    end.
  (** 2074-2198 on the root, [nb] blocks from number [ib] on *)
  Fixpoint dump_root {A} (fails : nat -> bool) (nb ib : nat) (s : ps) (kf : nat * list ascii)
      (bad good : list ascii -> prog A) : prog A :=
    match nb with
    | O => good kf.2
    | S nb' =>
        let '(kf', c) := dump_write fails kf (dump_text 0 s ib) in
        if decide (c = IRM_OK) then
          dump_receive fails (seq 1 (tasks s - 1)) kf' bad (fun kf1 =>
            Barrier (dump_root fails nb' (S ib) s kf1 bad good))
        else bad kf'.2
    end.
  (** and on the others *)
  Fixpoint dump_blocks {A} (nb ib n : nat) (s : ps) (k : prog A) : prog A :=
    match nb with
    | O => k
    | S nb' => send_text (dump_text n s ib) (Barrier (dump_blocks nb' (S ib) n s k))
    end.
  Definition dump_call {T} (on append opens : bool) (fails : nat -> bool) (old : list ascii) (s0 : ps)
      (k : ps -> answer -> prog T) : prog T :=
    let s := clear s0 in
    announce DumpModule
      (Bcast (Ints [bit on]) (fun _ =>
         if on then
           Bcast (Ints [if opens then 0 else -1]) (fun _ =>
             if opens then
               dump_root fails (blocks_of (p_map s)) 0 s (O, Files.Model.opened append (Some old))
                 (fun t => k (returned IRM_FAIL s) (File IRM_FAIL t))
                 (fun t => k (with_x (l_end L (p_x s)) s) (File IRM_OK t))
             else k (returned IRM_FAIL s) (File IRM_FAIL old))
         else k s (File IRM_OK old))).
  Definition dump_worker {T} (n : nat) (s : ps) (k : ps -> prog T) : prog T :=
    Bcast (Ints [0]) (fun on =>
      if decide (int_of on = 0) then k s
      else Bcast (Ints [0]) (fun rc =>
             if decide (int_of rc = 0) then
               dump_blocks (blocks_of (p_map s)) 0 n s (k (with_x (l_end L (p_x s)) s))
             else k (returned IRM_FAIL s))).

  (** A method called by the user on the root *)
  Definition perform {T} (c : call) (s : ps) (k : ps -> answer -> prog T) : prog T :=
    match c with
    | SetNum f x => set_call f (Nums [x]) s k
    | SetFlag f b => set_call f (Ints [bit b]) s k
    | SetPrint a b c => set_call PrintOn (Ints [bit a; bit b; bit c]) s k
    | SetInt f z => set_call f (Ints [z]) s k
    | SetPrefix t => prefix_call t s k
    | SetVec v l => vec_call v l s k
    | SetMask l => mask_call l s k
    | Get q old => get_call q old s k
    | GetConc _ => conc_call s k
    | SetConc l => setconc_call l s k
    | GetSpecies old => species_call old s k
    | State o i => state_call o i s k
    | RunInput w i u t => run_call w i u t s k
    | Cells => cells_call s k
    | MapCells g => map_call g s k
    | SelOut old => so_call old s k
    | ErrString => err_call s k
    | Dump on append opens fails old => dump_call on append opens fails old s k
    end.

  (** A method performed by worker [n]. GetErrorString and the states do not clear the error string.
      The methods that are not modelled are undefined here. *)
  Definition work {T} (m : collective_method) (n : nat) (s0 : ps) (k : ps -> prog T) : prog T :=
    let s := clear s0 in
    match m with
    | SetTime => set_worker n Time s k | SetTimeStep => set_worker n TimeStep s k
    | SetTimeConversion => set_worker n TimeConversion s k
    | SetRebalanceFraction => set_worker n RebalanceFraction s k
    | SetRebalanceByCell => set_worker n RebalanceByCell s k
    | SetComponentH2O => set_worker n ComponentH2O s k
    | SetPartitionUZSolids => set_worker n PartitionUZ s k
    | SetSelectedOutputOn => set_worker n SelectedOutputOn s k
    | SetSpeciesSaveOn => set_worker n SpeciesSave s k
    | UseSolutionDensityVolume => set_worker n UseDensityVolume s k
    | SetPrintChemistryOn => set_worker n PrintOn s k
    | SetUnitsExchange => set_worker n UExchange s k | SetUnitsGasPhase => set_worker n UGas s k
    | SetUnitsKinetics => set_worker n UKinetics s k | SetUnitsPPassemblage => set_worker n UPP s k
    | SetUnitsSolution => set_worker n USolution s k | SetUnitsSSassemblage => set_worker n USS s k
    | SetUnitsSurface => set_worker n USurface s k | SetErrorHandlerMode => set_worker n ErrorMode s k
    | SetFilePrefix => prefix_worker s k
    | SetDensityUser => vec_worker n Density s k | SetPorosity => vec_worker n Porosity s k
    | SetRepresentativeVolume => vec_worker n RV s k | SetSaturationUser => vec_worker n Saturation s k
    | SetTemperature => vec_worker n Tempc s k | SetPressure => vec_worker n Pressure s k
    | SetPrintChemistryMask => scatter_mask false n s k
    | GetTemperature => get_worker n QTemperature s k | GetPressure => get_worker n QPressure s k
    | GetSolutionVolume => get_worker n QVolume s k | GetViscosity => get_worker n QViscosity s k
    | GetDensityCalculated => get_worker n QDensity s k | GetSaturationCalculated => get_worker n QSaturation s k
    | GetConcentrations => conc_worker n s k
    | SetConcentrations => setconc_worker n s k
    | GetSpeciesConcentrations => species_worker n s k
    | StateSave => state_worker Save s0 k | StateApply => state_worker Apply s0 k | StateDelete => state_worker Delete s0 k
    | RunString => run_worker s k
    | RunCells => cells_worker n s k
    | CreateMapping => map_worker s k
    | GetSelectedOutput => so_worker s k
    | GetErrorString => err_worker s0 k
    | DumpModule => dump_worker n s k
    | _ => Undef
    end.

  (** MpiWorker: src/PhreeqcRM.cpp 7015-7478. [n] is the number of the process. *)
  Definition loop (w : nat * ps) : msg * (msg -> prog (nat * ps * bool)) :=
    (Ints [-1], fun v =>
       match performs (int_of v) with
       | Some MpiWorkerBreak => Fin (w, true)
       | Some m => work m (fst w) (snd w) (fun s => Fin ((fst w, s), false))
       | None => Undef
       end).

  (** A session: the user's calls on the root, then MpiWorkerBreak (7481-7495) *)
  Fixpoint session (cs : list call) (s : ps) (acc : list answer) : prog (ps * list answer) :=
    match cs with
    | [] => announce MpiWorkerBreak (Fin (s, acc))
    | c :: r => perform c s (fun s' a => session r s' (acc ++ [a]))
    end.
  Definition start (cs : list call) (s : ps) (ws : list ps) : config D (ps * list answer) (nat * ps) :=
    Config (session cs s []) (imap (fun i w => Fin ((S i, w), false)) ws) (replicate (length ws) []).
End model.
Arguments ps : clear implicits.
Arguments local : clear implicits.
Arguments call : clear implicits.
Arguments answer : clear implicits.
