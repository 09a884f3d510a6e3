(** What is required of the processes of the MPI build. *)
From Coq Require Import ZArith Ascii.
From stdpp Require Import prelude gmap relations.
From Verif.Base Require Import Result.
From Verif.Partition Require Import Spec.
From Verif.Mapping Require Import Model Spec.
From Verif.Mpi Require Import Comm Methods Model.
From Verif.Files Require Model.
Local Open Scope Z_scope.

Section spec.
  Context {D X : Type} (L : local D X).
  Notation ps := (ps D X).

  (** A mapping: every cell has a grid cell, the grid cells exist and belong to one cell only, every
      cell belongs to one of [t] processes. *)
  Record good_map (t : nat) (m : mapping_state) : Prop := {
    gm_tasks : nthreads m = Z.of_nat t;
    gm_count : Z.of_nat (length (backward m)) = count_chemistry m;
    gm_cells : forall j c, backward m !! j = Some c -> c <> [] /\ forall x, x ∈ c -> 0 <= x < nxyz m;
    gm_disjoint : forall j1 j2 c1 c2 x, backward m !! j1 = Some c1 -> backward m !! j2 = Some c2 ->
                    x ∈ c1 -> x ∈ c2 -> j1 = j2;
    gm_split : valid_split (count_chemistry m) (start_cell m) (end_cell m);
    gm_length : length (start_cell m) = t;
  }.

  (** [l] has for each cell of process [n] what [src] has for the first grid cell of that cell. *)
  Definition mirrors {A} (m : mapping_state) (n : nat) (src l : list A) : Prop :=
    exists b e, start_cell m !! n = Some b /\ end_cell m !! n = Some e /\
      Z.of_nat (length l) = e - b + 1 /\
      forall j, b <= j <= e -> exists x c, backward m !! Z.to_nat j = Some (x :: c) /\
        l !! Z.to_nat (j - b) = src !! Z.to_nat x.

  (** The kind of message that holds a setting *)
  Definition kind (f : setting) : dtype * nat :=
    match f with
    | Time | TimeStep | TimeConversion | RebalanceFraction => (TNum, 1%nat)
    | PrintOn => (TInt, 3%nat)
    | _ => (TInt, 1%nat)
    end.

  (** What the root did since the mapping was made: the vectors given since the ranges were last
      replaced by CreateMapping or StateApply, whether the mask was, the states saved with this mapping;
      and the number of grid cells. *)
  Record known := Known { k_vecs : list vec; k_mask : bool; k_ids : list Z; k_nx : Z }.

  (** The processes agree: same settings, mapping and ranges, saved states; the vectors in [k] are
      distributed according to the ranges. [ws]: the processes 1, 2, ... *)
  Record in_step (k : known) (s : ps) (ws : list ps) : Prop := {
    is_nx : nxyz (p_map s) = k_nx k;
    is_map : good_map (S (length ws)) (p_map s);
    is_ranges : forall w, w ∈ ws ->
      nxyz (p_map w) = nxyz (p_map s) /\ nthreads (p_map w) = nthreads (p_map s) /\
      count_chemistry (p_map w) = count_chemistry (p_map s) /\ backward (p_map w) = backward (p_map s) /\
      start_cell (p_map w) = start_cell (p_map s) /\ end_cell (p_map w) = end_cell (p_map s);
    is_val : forall w, w ∈ ws -> p_val w = p_val s;
    is_kind : forall f, shape (p_val s f) = kind f;
    is_prefix : forall w, w ∈ ws -> p_prefix w = p_prefix s;
    is_saved : forall w, w ∈ ws -> p_saved w = p_saved s;
    is_check : forall w, w ∈ ws -> p_check w = p_check s;
    is_full : forall v, v ∈ [Density; Porosity; RV; Saturation] -> nxyz (p_map s) <= Z.of_nat (length (p_root s v));
    is_full_old : flag s PartitionUZ = true -> nxyz (p_map s) <= Z.of_nat (length (p_root s OldSaturation));
    is_full_mask : nxyz (p_map s) <= Z.of_nat (length (p_mask_root s));
    is_vecs : forall v n w, v ∈ k_vecs k -> (s :: ws) !! n = Some w -> mirrors (p_map s) n (p_root s v) (p_work w v);
    is_mask : k_mask k = true -> forall n w, (s :: ws) !! n = Some w -> mirrors (p_map s) n (p_mask_root s) (p_mask_work w);
    is_ids : forall i, i ∈ k_ids k -> exists ss es, p_saved s !! i = Some (ss, es) /\
               valid_split (count_chemistry (p_map s)) ss es /\ length ss = S (length ws);
  }.

  (** The calls a user may make: [SetErrorHandlerMode(2)], which ends the process at the next error, is
      left out; the four vectors are to be given again after CreateMapping and StateApply before they
      are needed; the pieces of a dump are written without error. GetSelectedOutput and GetErrorString
      are left out here. *)
  Definition four : list vec := [Density; Porosity; RV; Saturation].
  Definition may_call (m : mapping_state) (k : known) (c : call D) : Prop :=
    match c with
    | SetNum f _ => kind f = (TNum, 1%nat)
    | SetFlag f _ => f ∈ [RebalanceByCell; ComponentH2O; PartitionUZ; SelectedOutputOn; SpeciesSave; UseDensityVolume]
    | SetPrint _ _ _ => True
    | SetInt f z => f ∈ [UExchange; UGas; UKinetics; UPP; USolution; USS; USurface] \/ f = ErrorMode /\ z <> 2
    | SetPrefix _ => True
    | SetVec v _ => v <> OldSaturation
    | SetMask l => nxyz m <= Z.of_nat (length l)
    | Get _ _ => True
    | GetConc _ | Cells => forall v, v ∈ four -> v ∈ k_vecs k
    | SetConc l => (forall v, v ∈ four -> v ∈ k_vecs k) /\ nxyz m * Z.of_nat (l_ncomp L) <= Z.of_nat (length l)
    | GetSpecies _ => True
    | State Apply i => i ∈ k_ids k
    | State _ _ => True
    | RunInput _ _ _ _ => True
    | MapCells g => Z.of_nat (length g) <> nxyz m \/ exists count, well_formed_mapping (nxyz m) (nthreads m) count g
    | Dump _ _ _ fails _ => forall i, fails i = false
    | SelOut _ | ErrString => False
    end.
  Definition remember (m : mapping_state) (k : known) (c : call D) : known :=
    match c with
    | SetVec v l => if decide (Z.of_nat (length l) < nxyz m) then k else Known (v :: k_vecs k) (k_mask k) (k_ids k) (k_nx k)
    | SetMask _ => Known (k_vecs k) true (k_ids k) (k_nx k)
    | State Save i => Known (k_vecs k) (k_mask k) (i :: k_ids k) (k_nx k)
    | State Apply _ => Known [] false (k_ids k) (k_nx k)
    | State Delete i => Known (k_vecs k) (k_mask k) (filter (fun j => j <> i) (k_ids k)) (k_nx k)
    | MapCells g => if decide (Z.of_nat (length g) <> nxyz m) then k else Known [] false [] (k_nx k)
    (* The values of these two are overwritten by their getters *)
    | Get QTemperature _ => Known (filter (fun v => v <> Tempc) (k_vecs k)) (k_mask k) (k_ids k) (k_nx k)
    | Get QPressure _ => Known (filter (fun v => v <> Pressure) (k_vecs k)) (k_mask k) (k_ids k) (k_nx k)
    (* The cells may move, and not all vectors follow *)
    | Cells => Known (filter (fun v => v ∈ four) (k_vecs k)) (k_mask k) (k_ids k) (k_nx k)
    | _ => k
    end.
  (** [m]: only its number of grid cells and processes matter, and they never change. *)
  Fixpoint may_run (m : mapping_state) (k : known) (cs : list (call D)) : Prop :=
    match cs with
    | [] => True
    | c :: r => may_call m k c /\ may_run m (remember m k c) r
    end.

  (** What is assumed of the parts: the plan of the root for new ranges is valid (C05, C06), and every
      process has one time per cell or one for all. *)
  Record lawful : Prop := {
    lw_plan : forall s vs ss es t, good_map t (p_map s) -> l_plan L s vs = (0, ss, es) ->
                valid_split (count_chemistry (p_map s)) ss es /\ length ss = t;
    lw_times : forall b cells x, length (l_times L b cells x) = if b : bool then length cells else 1%nat;
  }.

  (** What the answers have to be. [all]: the processes before the call, the root first. *)
  (** [r] has as value [i] of every grid cell of cell [j] something that satisfies [f n j w i], [w]
      being the state of the process [n] that has the cell; the other grid cells are as in [rest]. *)
  Definition covers (m : mapping_state) (all : list ps) (width : nat) (f : nat -> Z -> ps -> nat -> D -> Prop)
      (rest r : list D) : Prop :=
    Z.of_nat (length r) = nxyz m * Z.of_nat width /\
    (forall j c x n w i, 0 <= j -> backward m !! Z.to_nat j = Some c -> x ∈ c ->
       owns (start_cell m) (end_cell m) n j -> all !! n = Some w -> (i < width)%nat ->
       exists y, r !! Z.to_nat (Z.of_nat i * nxyz m + x) = Some y /\ f n j w i y) /\
    (forall x i, 0 <= x < nxyz m -> (forall j c, backward m !! j = Some c -> x ∉ c) -> (i < width)%nat ->
       r !! Z.to_nat (Z.of_nat i * nxyz m + x) = rest !! Z.to_nat (Z.of_nat i * nxyz m + x)).
  (** The density, porosity, volume and saturation given for a cell, as the root has them *)
  Definition given (s : ps) (j : Z) (p : D * D * D * D) : Prop :=
    exists x c, backward (p_map s) !! Z.to_nat j = Some (x :: c) /\
      let '(d, po, v, sa) := p in
      p_root s Density !! Z.to_nat x = Some d /\ p_root s Porosity !! Z.to_nat x = Some po /\
      p_root s RV !! Z.to_nat x = Some v /\ p_root s Saturation !! Z.to_nat x = Some sa.

  (** The values that the setters take *)
  Definition admissible (f : setting) (v : msg D) : Prop :=
    match f, v with
    | USolution, Ints [u] => 1 <= u <= 3
    | (UExchange | UGas | UKinetics | UPP | USS | USurface), Ints [u] => 0 <= u <= 2
    | ErrorMode, Ints [i] => 0 <= i <= 2
    | _, _ => True
    end.
  Definition equal (a b : msg D) : Prop :=
    a = b \/ exists x y, a = Nums [x] /\ b = Nums [y] /\ l_eqb L x y = true.
  Definition pairwise (P : nat -> ps -> ps -> Prop) (all all' : list ps) : Prop :=
    length all = length all' /\ forall n w w', all !! n = Some w -> all' !! n = Some w' -> P n w w'.
  Definition same_instances : list ps -> list ps -> Prop := pairwise (fun _ w w' => p_x w' = p_x w).
  Definition set_result (f : setting) (v : msg D) (s : ps) (all all' : list ps) (a : answer D) : Prop :=
    same_instances all all' /\
    pairwise (fun _ w w' => forall g, g <> f -> p_val w' g = p_val w g) all all' /\
    (a = Code IRM_OK /\ (forall w', w' ∈ all' -> equal (p_val w' f) v) \/
     a = Code IRM_INVALIDARG /\ ~ admissible f v /\
       (forall w', w' ∈ all' -> p_val w' f = match f with ErrorMode => Ints [0] | _ => p_val s f end)).

  (** The cells of process [n] *)
  Definition cells_from (m : mapping_state) (n : nat) : list Z :=
    match start_cell m !! n, end_cell m !! n with
    | Some b, Some e => map (fun l => b + Z.of_nat l) (seq 0 (Z.to_nat (e - b + 1)))
    | _, _ => []
    end.
  (** What a number is read from: GetViscosity is answered by the root with viscosities and by the
      others with solution volumes. *)
  Definition answered (q : quantity) (n : nat) : quantity :=
    match q, n with QViscosity, S _ => QVolume | _, _ => q end.

  (** RunCells. [w]: a process, as it is when the cells are run. *)
  Definition at_run (w : ps) : ps := with_check false (clear w).
  Definition lacks (m : mapping_state) (n : nat) (w : ps) : Prop := exists j, j ∈ cells_from m n /\ l_missing L (p_x w) j = true.
  Definition after_cells (w : ps) : X := (l_run_cells L (at_run w)).1.1.1.
  Definition cells_failed (w : ps) : Prop := (l_run_cells L (at_run w)).1.1.2 <> 0.
  Definition cells_result (s : ps) (all all' : list ps) (a : answer D) (s' : ps) : Prop :=
    (* a cell has no solution *)
    p_check s = true /\ (exists n w, all !! n = Some w /\ lacks (p_map s) n w) /\ a = Code IRM_FAIL /\ same_instances all all' \/
    (p_check s = true -> forall n w, all !! n = Some w -> ~ lacks (p_map s) n w) /\
    ((exists w, w ∈ all /\ cells_failed w) /\ a = Code IRM_FAIL /\
       pairwise (fun _ w w' => p_x w' = after_cells w) all all' \/
     (forall w, w ∈ all -> ~ cells_failed w) /\
     (* the cells stay, or the ranges are new *)
     ((a = Code IRM_OK \/ a = Code IRM_FAIL) /\ pairwise (fun _ w w' => p_x w' = after_cells w) all all' /\
        start_cell (p_map s') = start_cell (p_map s) /\ end_cell (p_map s') = end_cell (p_map s) \/
      a = Code IRM_OK /\
        pairwise (fun _ w w' => p_x w' = l_move L (start_cell (p_map s')) (end_cell (p_map s')) (after_cells w)) all all')).

  (** DumpModule: the file is the one that the build with threads would leave if its worker [n] held the
      reactants of process [n]. *)
  Definition text_at (all : list ps) (it : nat * Files.Model.kind * Z) : option (list ascii) :=
    all !! it.1.1 ≫= fun w => l_entity L (p_x w) (flag w PartitionUZ) it.1.2 it.2.
  Definition dump_result (on append opens : bool) (fails : nat -> bool) (old : list ascii) (s : ps)
      (all all' : list ps) (a : answer D) : Prop :=
    if negb on then a = File IRM_OK old /\ same_instances all all'
    else if negb opens then a = File IRM_FAIL old /\ same_instances all all'
    else pairwise (fun _ w w' => p_x w' = l_end L (p_x w)) all all' /\
         let r := Files.Model.dump_module (Z.to_nat 4094) fails append (text_at all) 5000
                    (zip (start_cell (p_map s)) (end_cell (p_map s))) (Some old) in
         a = File r.2 (List.last r.1 []).

  Definition call_result (c : call D) (s : ps) (ws : list ps) (a : answer D) (s' : ps) (ws' : list ps) : Prop :=
    let all := s :: ws in
    let all' := s' :: ws' in
    let m := p_map s in
    match c with
    | SetNum f x => set_result f (Nums [x]) s all all' a
    | SetFlag f b => set_result f (Ints [bit b]) s all all' a
    | SetPrint x y z => set_result PrintOn (Ints [bit x; bit y; bit z]) s all all' a
    | SetInt f z => set_result f (Ints [z]) s all all' a
    | SetPrefix t =>
        same_instances all all' /\ a = Code (if decide (t = [] /\ p_prefix s <> []) then IRM_INVALIDARG else IRM_OK) /\
        (forall w', w' ∈ all' -> p_prefix w' = t)
    | SetVec v l =>
        if decide (Z.of_nat (length l) < nxyz m) then a = Code IRM_FAIL /\ same_instances all all'
        else a = Code IRM_OK /\ p_root s' v = l /\
             pairwise (fun n w w' =>
               match v with
               | Tempc | Pressure => exists b part, start_cell m !! n = Some b /\ mirrors m n l part /\ p_x w' = l_set_cells L v b part (p_x w)
               | _ => p_x w' = p_x w
               end) all all'
    | SetMask l => a = Code IRM_OK /\ p_mask_root s' = l /\ same_instances all all'
    | Get q old =>
        same_instances all all' /\
        exists r, a = Vector IRM_OK r /\
          covers m all 1 (fun n j w _ y => y = l_value L (answered q n) (p_x w) j)
            (resize (Z.to_nat (nxyz m)) (padding L q) (held q old s)) r
    | GetConc _ =>
        same_instances all all' /\
        exists r, a = Vector IRM_OK r /\
          covers m all (l_ncomp L) (fun _ j w i y => exists p, given s j p /\ y = l_conc L (p_x w) (p_val s) p j i)
            (replicate (Z.to_nat (nxyz m) * l_ncomp L) (l_inactive L)) r
    | SetConc l =>
        a = Code IRM_OK /\
        exists P V, (forall j, 0 <= j < count_chemistry m -> given s j (P j) /\ length (V j) = l_ncomp L /\
                       forall x c k, backward m !! Z.to_nat j = Some (x :: c) -> (k < l_ncomp L)%nat ->
                         V j !! k = l !! Z.to_nat (Z.of_nat k * nxyz m + x)) /\
          pairwise (fun n w w' => p_x w' = foldl (fun x j => l_set_conc L x (p_val s) (P j) j (V j)) (p_x w) (cells_from m n)) all all'
    | GetSpecies old =>
        same_instances all all' /\
        exists r, a = Vector IRM_OK r /\
          if flag s SpeciesSave then
            covers m all (l_nspec L) (fun _ j w i y => y = l_species L (p_x w) j i)
              (resize (l_nspec L * Z.to_nat (nxyz m)) (l_zero L) old) r
          else r = []
    | State Save i =>
        a = Code IRM_OK /\
        pairwise (fun _ w w' => p_x w' = l_state L Save i (p_x w) /\ p_saved w' = <[i := (start_cell m, end_cell m)]> (p_saved w)) all all'
    | State Apply i =>
        a = Code IRM_OK /\
        exists ss es, p_saved s !! i = Some (ss, es) /\
          pairwise (fun _ w w' => p_x w' = l_state L Apply i (p_x w) /\ start_cell (p_map w') = ss /\ end_cell (p_map w') = es) all all'
    | State Delete i =>
        if decide (p_saved s !! i = None) then a = Code IRM_INVALIDARG /\ same_instances all all'
        else a = Code IRM_OK /\
             pairwise (fun _ w w' => p_x w' = l_state L Delete i (p_x w) /\ p_saved w' = delete i (p_saved w)) all all'
    | RunInput b i u t =>
        let run w := l_run L (b, i, u) t (p_x w) in
        pairwise (fun _ w w' => p_x w' = (run w).1.1) all all' /\
        (a = Code IRM_OK /\ (forall w, w ∈ all -> (run w).1.2.1.1 = 0) \/
         a = Code IRM_FAIL /\ exists w, w ∈ all /\ (run w).1.2.1.1 <> 0)
    | Cells => cells_result s all all' a s'
    | MapCells g =>
        same_instances all all' /\
        if decide (Z.of_nat (length g) <> nxyz m) then a = Code IRM_FAIL
        else a = Code IRM_OK /\ p_map s' = (create_mapping m g).1
    | Dump on append opens fails old => dump_result on append opens fails old s all all' a
    | SelOut _ | ErrString => False
    end.

  (** GetSelectedOutput: every process has the table of the root's current number, with a row for each
      of its cells and as many columns. The answer has row [j - b] of the table of process [n] for the
      cell [j], [b] being the first cell of [n]. *)
  Definition tables (u : Z) (ncol : nat) (s : ps) (ws : list ps) : Prop :=
    0 <= u /\ l_current L (p_x s) = u /\
    forall n w, (s :: ws) !! n = Some w -> exists data,
      l_table L (p_x w) u = Some (length (cells_from (p_map s) n), ncol, data) /\
      length data = (length (cells_from (p_map s) n) * ncol)%nat.
  Definition so_result (u : Z) (ncol : nat) (old : list D) (s : ps) (ws : list ps) (a : answer D) (s' : ps) (ws' : list ps) : Prop :=
    same_instances (s :: ws) (s' :: ws') /\
    exists r, a = Vector IRM_OK r /\
      covers (p_map s) (s :: ws) ncol
        (fun n j w i y => exists b nrow data, start_cell (p_map s) !! n = Some b /\ l_table L (p_x w) u = Some (nrow, ncol, data) /\
           data !! (i * nrow + Z.to_nat (j - b))%nat = Some y)
        (resize (Z.to_nat (nxyz (p_map s)) * ncol) (l_zero L) old) r.

  (** The calls of a session in turn *)
  Inductive history : list (call D) -> ps -> list ps -> list (answer D) -> ps -> list ps -> Prop :=
  | history_nil s ws : history [] s ws [] s ws
  | history_cons c cs s ws a s1 ws1 ans s2 ws2 :
      call_result c s ws a s1 ws1 -> history cs s1 ws1 ans s2 ws2 -> history (c :: cs) s ws (a :: ans) s2 ws2.
End spec.
