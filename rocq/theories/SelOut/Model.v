(** Selected-output tables: punching, transfer encoding, one row per cell, GetSelectedOutput.

    Source: src/IPhreeqcPhast/IPhreeqc/CSelectedOutput.cpp, src/IPhreeqcPhast/IPhreeqc/IPhreeqc.cpp
    1129-1150 (EndRow), 1152-1162 and 1240-1262 (the tables are rebuilt by every run),
    src/PhreeqcRM.cpp 4496-4637 (GetSelectedOutput), 4640-4661 (GetSelectedOutputColumnCount),
    804-1008 (CheckSelectedOutput, thread build), 10250-10480 (RunCellsThread).

    Doubles are an arbitrary type [D]; [inactive] is (double) INACTIVE_CELL_VALUE and [of_long] the
    conversion (double) lVal.  Strings are the contents of NUL-terminated strings, so strlen is
    [String.length].  Allocation never fails. *)
From Coq Require Import String.
From stdpp Require Import prelude strings gmap.
From Verif.Base Require Import Result.

(** VAR, Var.h: the five types. *)
Inductive var (D : Type) := VEmpty | VErr (e : Z) | VLong (z : Z) | VDbl (d : D) | VStr (s : string).
Arguments VEmpty {D}. Arguments VErr {D} _. Arguments VLong {D} _. Arguments VDbl {D} _.
Arguments VStr {D} _.

(** class CSelectedOutput: m_nRowCount, m_vecVarHeadings, m_arrayVar, m_mapHeadingToCol. *)
Record table (D : Type) := Tab {
  t_rows : nat; t_head : list string; t_cols : list (list (var D)); t_map : gmap string nat }.
Arguments Tab {D} _ _ _ _. Arguments t_rows {D} _. Arguments t_head {D} _.
Arguments t_cols {D} _. Arguments t_map {D} _.

Section Tables.
Context {D : Type}.
Notation var := (var D).
Notation table := (table D).

(** Constructor, 28-32. *)
Definition new_table : table := Tab 0 [] [] ∅.

(** GetRowCount, GetColCount, 46-61. *)
Definition col_count (t : table) : nat := length (t_head t).
Definition row_count (t : table) : nat := if decide (col_count t = 0) then 0 else S (t_rows t).

(** VRESULT codes used by Get: VR_OK 0, VR_INVALIDROW -4, VR_INVALIDCOL -5 (Var.h). *)
Inductive vresult := VR_OK | VR_INVALIDROW | VR_INVALIDCOL.
Definition vr_code (r : vresult) : Z :=
  match r with VR_OK => 0 | VR_INVALIDROW => -4 | VR_INVALIDCOL => -5 end.

(** Get(nRow, nCol), 70-97. *)
Definition get (t : table) (r c : Z) : outcome (vresult * var) :=
  if decide (Z.of_nat (row_count t) <= r \/ r < 0)%Z
  then Ret (VR_INVALIDROW, VErr (vr_code VR_INVALIDROW))
  else if decide (Z.of_nat (col_count t) <= c \/ c < 0)%Z
  then Ret (VR_INVALIDCOL, VErr (vr_code VR_INVALIDCOL))
  else if decide (r = 0%Z) then
    match t_head t !! Z.to_nat c with Some h => Ret (VR_OK, VStr h) | None => UB end
  else
    match t_cols t !! Z.to_nat c with
    | Some col => match col !! Z.to_nat (r - 1) with Some v => Ret (VR_OK, v) | None => UB end
    | None => UB
    end.

(** EndRow, 100-124. *)
Definition fill_to (n : nat) (col : list var) : list var :=
  col ++ replicate (n - length col) VEmpty.
Definition end_row (t : table) : table :=
  if decide (col_count t = 0) then t
  else Tab (S (t_rows t)) (t_head t)
           (map (fill_to (S (t_rows t))) (take (col_count t) (t_cols t))
              ++ drop (col_count t) (t_cols t)) (t_map t).

(** PushBack, 126-173.  at() throws when the row is not there. *)
Definition push (k : string) (v : var) (t : table) : outcome table :=
  match t_map t !! k with
  | None =>
      Ret (Tab (t_rows t) (t_head t ++ [k]) (t_cols t ++ [replicate (t_rows t) VEmpty ++ [v]])
               (<[k := size (t_map t)]> (t_map t)))
  | Some c =>
      match t_cols t !! c with
      | None => UB
      | Some col =>
          if decide (length col = t_rows t)
          then Ret (Tab (t_rows t) (t_head t) (<[c := col ++ [v]]> (t_cols t)) (t_map t))
          else if decide (t_rows t < length col)
          then Ret (Tab (t_rows t) (t_head t) (<[c := <[t_rows t := v]> col]> (t_cols t)) (t_map t))
          else Throw
      end
  end.

(** What the solver does to a table between two runs: fpunchf (IPhreeqc.cpp 1760-1820) and
    fpunchf_end_row.  The extra empties that IPhreeqc::EndRow pushes first are pushes as well. *)
Inductive event := Punch (k : string) (v : var) | End.
Definition do_event (e : event) (t : table) : outcome table :=
  match e with Punch k v => push k v t | End => Ret (end_row t) end.
Fixpoint do_events (es : list event) (t : table) : outcome table :=
  match es with [] => Ret t | e :: es' => obind (do_event e t) (do_events es') end.

(** The four arrays of the transfer encoding. *)
Record coded := Coded {
  cd_types : list Z; cd_longs : list Z; cd_doubles : list D; cd_strings : string }.

(** VAR_TYPE, Var.h: TT_EMPTY 0, TT_ERROR 1, TT_LONG 2, TT_DOUBLE 3, TT_STRING 4. *)
Definition type_code (v : var) : Z :=
  match v with VEmpty => 0 | VErr _ => 1 | VLong _ => 2 | VDbl _ => 3 | VStr _ => 4 end.

(** Serialize, headings part, 256-264. *)
Definition put_headings (hs : list string) : coded :=
  Coded [] (1%Z :: Z.of_nat (length hs) :: map (fun h => Z.of_nat (String.length h)) hs) []
    (foldr String.append EmptyString hs).
(** One value, 271-291. *)
Definition put_value (v : var) (c : coded) : coded :=
  Coded (cd_types c ++ [type_code v])
    (match v with
     | VErr e => cd_longs c ++ [e]
     | VLong z => cd_longs c ++ [z]
     | VStr s => cd_longs c ++ [Z.of_nat (String.length s)]
     | _ => cd_longs c
     end)
    (match v with VDbl d => cd_doubles c ++ [d] | _ => cd_doubles c end)
    (match v with VStr s => cd_strings c +:+ s | _ => cd_strings c end).
Fixpoint put_values (row : nat) (cols : list (list var)) (c : coded) : outcome coded :=
  match cols with
  | [] => Ret c
  | col :: cols' =>
      match col !! row with
      | None => UB                                      (* m_arrayVar[j][i] *)
      | Some v => put_values row cols' (put_value v c)
      end
  end.
(** Serialize(row_number), 238-294. *)
Definition serialize (row : nat) (t : table) : outcome coded :=
  if decide (length (t_cols t) < col_count t) then UB
  else put_values row (take (col_count t) (t_cols t)) (put_headings (t_head t)).

(** DeSerialize, 295-360.  The indices i_types, i_longs, i_doubles and strings_start are kept as
    the remaining parts of the arrays; a read beyond the end is undefined. *)
Definition rdv {A} (l : list A) : outcome (A * list A) :=
  match l with x :: l' => Ret (x, l') | [] => UB end.
(** substr(start, l) and start += l.  Lengths that exceed the string (never written by Serialize)
    would make the next substr throw; here they give empty strings. *)
Definition cut (n : nat) (s : string) : string * string :=
  (String.substring 0 n s, String.substring n (String.length s - n) s).
Fixpoint take_headings (n : nat) (longs : list Z) (s : string)
  : outcome (list string * list Z * string) :=
  match n with
  | O => Ret ([], longs, s)
  | S n' =>
      obind (rdv longs) (fun '(l, longs') =>
        let '(h, s') := cut (Z.to_nat l) s in
        obind (take_headings n' longs' s') (fun '(hs, lg, s'') => Ret (h :: hs, lg, s'')))
  end.
(** The switch on one value, 323-355; an unknown type code pushes nothing. *)
Definition take_value (h : string) (c : coded) (t : table) : outcome (coded * table) :=
  obind (rdv (cd_types c)) (fun '(ty, types) =>
    if decide (ty = 0%Z) then
      obind (push h VEmpty t) (fun t' => Ret (Coded types (cd_longs c) (cd_doubles c) (cd_strings c), t'))
    else if decide (ty = 1%Z) then
      obind (rdv (cd_longs c)) (fun '(e, longs) =>
      obind (push h (VErr e) t) (fun t' => Ret (Coded types longs (cd_doubles c) (cd_strings c), t')))
    else if decide (ty = 2%Z) then
      obind (rdv (cd_longs c)) (fun '(z, longs) =>
      obind (push h (VLong z) t) (fun t' => Ret (Coded types longs (cd_doubles c) (cd_strings c), t')))
    else if decide (ty = 3%Z) then
      obind (rdv (cd_doubles c)) (fun '(d, doubles) =>
      obind (push h (VDbl d) t) (fun t' => Ret (Coded types (cd_longs c) doubles (cd_strings c), t')))
    else if decide (ty = 4%Z) then
      obind (rdv (cd_longs c)) (fun '(l, longs) =>
      let '(s, rest) := cut (Z.to_nat l) (cd_strings c) in
      obind (push h (VStr s) t) (fun t' => Ret (Coded types longs (cd_doubles c) rest, t')))
    else Ret (Coded types (cd_longs c) (cd_doubles c) (cd_strings c), t)).
Fixpoint take_column (h : string) (nrows : nat) (c : coded) (t : table) : outcome (coded * table) :=
  match nrows with
  | O => Ret (c, t)
  | S n => obind (take_value h c t) (fun '(c', t') => take_column h n c' t')
  end.
Fixpoint take_columns (hs : list string) (nrows : nat) (c : coded) (t : table)
  : outcome (coded * table) :=
  match hs with
  | [] => Ret (c, t)
  | h :: hs' => obind (take_column h nrows c t) (fun '(c', t') => take_columns hs' nrows c' t')
  end.
Definition deserialize (c : coded) (t : table) : outcome table :=
  obind (rdv (cd_longs c)) (fun '(nrows, l1) =>
  obind (rdv l1) (fun '(ncols, l2) =>
  obind (take_headings (Z.to_nat ncols) l2 (cd_strings c)) (fun '(hs, l3, s) =>
  obind (take_columns hs (Z.to_nat nrows) (Coded (cd_types c) l3 (cd_doubles c) s) t)
    (fun '(_, t') => Ret (end_row t'))))).

(** Doublize, 361-403: m_nRowCount, the number of headings, and the values column by column. *)
Section Numbers.
Variables (inactive : D) (of_long : Z -> D).
Definition to_double (v : var) : D :=
  match v with VLong z => of_long z | VDbl d => d | _ => inactive end.
Fixpoint read_cells (col : list var) (n : nat) (i : nat) : outcome (list D) :=
  match n with
  | O => Ret []
  | S n' =>
      match col !! i with
      | None => UB
      | Some v => obind (read_cells col n' (S i)) (fun l => Ret (to_double v :: l))
      end
  end.
Fixpoint read_cols (cols : list (list var)) (nrow ncol : nat) : outcome (list D) :=
  match ncol with
  | O => Ret []
  | S n =>
      match cols with
      | [] => UB
      | col :: cols' =>
          obind (read_cells col nrow 0) (fun l =>
          obind (read_cols cols' nrow n) (fun l' => Ret (l ++ l')))
      end
  end.
Definition doublize (t : table) : outcome (nat * nat * list D) :=
  obind (read_cols (t_cols t) (t_rows t) (col_count t)) (fun l => Ret (t_rows t, col_count t, l)).

(** ** RunCellsThread, the selected-output part *)

(** SelectedOutputMap of a worker, in key order, as the last run left it. *)
Definition smap := list (Z * table).

(** Lines 10278-10297: the headings of the dummy run, each with an empty value; no EndRow. *)
Definition blank (t : table) : outcome table :=
  do_events (map (fun h => Punch h VEmpty) (t_head t)) new_table.
Fixpoint blanks (sm : smap) (cm : gmap Z table) : outcome (gmap Z table) :=
  match sm with
  | [] => Ret cm
  | (n, t) :: sm' => obind (blank t) (fun b => blanks sm' (<[n := b]> cm))
  end.

(** Lines 10397-10419: append row 0 of every table of the run.  None: PhreeqcRMStop. *)
Fixpoint store_rows (sm : smap) (cm : gmap Z table) : outcome (bool * gmap Z table) :=
  match sm with
  | [] => Ret (true, cm)
  | (n, t) :: sm' =>
      match cm !! n with
      | None => Ret (false, cm)
      | Some c =>
          obind (serialize 0 t) (fun code =>
          obind (deserialize code c) (fun c' => store_rows sm' (<[n := c']> cm)))
      end
  end.
(** Lines 10445-10456: an empty row for every table of the last run; find is not checked. *)
Fixpoint skip_rows (sm : smap) (cm : gmap Z table) : outcome (gmap Z table) :=
  match sm with
  | [] => Ret cm
  | (n, _) :: sm' =>
      match cm !! n with
      | None => UB
      | Some c => skip_rows sm' (<[n := end_row c]> cm)
      end
  end.

(** The loop 10326-10467 with selected_output_on.  [wet i] is "saturation > 1e-6"; [run i] is
    RunString for cell [i]: None when it fails (error handler mode < 3, the only possible ones, so
    the thread stops), else the tables it leaves.  The result tells whether the loop completed. *)
Fixpoint cell_loop (wet : nat -> bool) (run : nat -> option smap) (cells : list nat)
    (sm : smap) (cm : gmap Z table) : outcome (bool * gmap Z table) :=
  match cells with
  | [] => Ret (true, cm)
  | i :: cells' =>
      if wet i then
        match run i with
        | None => Ret (false, cm)
        | Some sm' =>
            obind (store_rows sm' cm) (fun '(ok, cm') =>
              if ok : bool then cell_loop wet run cells' sm' cm' else Ret (false, cm'))
        end
      else obind (skip_rows sm cm) (fun cm' => cell_loop wet run cells' sm cm')
  end.

(** CSelectedOutputMap after RunCellsThread (10256-10480); [dummy] is the dummy run. *)
Definition run_thread (on : bool) (dummy : option smap) (wet : nat -> bool)
    (run : nat -> option smap) (cells : list nat) : outcome (bool * gmap Z table) :=
  if on then
    match dummy with
    | None => Ret (false, ∅)
    | Some sm => obind (blanks sm ∅) (fun cm => cell_loop wet run cells sm cm)
    end
  else Ret (forallb (fun i => negb (wet i) || bool_decide (is_Some (run i))) cells, ∅).

(** The dummy run leaves CurrentSelectedOutputUserNumber at the last table (10285). *)
Definition current_after (on : bool) (dummy : smap) (cur : Z) : Z :=
  if on then match last dummy with Some p => p.1 | None => cur end else cur.

(** ** GetSelectedOutput (4496-4637, thread build) *)

(** so[icol*nxyz + ixyz] = x for the grid cells of one chemistry cell, 4614-4618. *)
Fixpoint write_cell (nxyz icol : nat) (js : list nat) (x : D) (so : list D) : outcome (list D) :=
  match js with
  | [] => Ret so
  | j :: js' =>
      if decide (icol * nxyz + j < length so)
      then write_cell nxyz icol js' x (<[icol * nxyz + j := x]> so) else UB
  end.
(** The loop over rows, 4610-4620. *)
Fixpoint write_rows (nxyz : nat) (bwd : list (list nat)) (icol nrow start : nat) (buf : list D)
    (irow n : nat) (so : list D) : outcome (list D) :=
  match n with
  | O => Ret so
  | S n' =>
      match bwd !! (start + irow) with
      | None => UB
      | Some js =>
          match buf !! (icol * nrow + irow) with
          | Some x =>
              obind (write_cell nxyz icol js x so)
                (write_rows nxyz bwd icol nrow start buf (S irow) n')
          | None =>
              if decide (js = []) then write_rows nxyz bwd icol nrow start buf (S irow) n' so else UB
          end
      end
  end.
(** The loop over columns, 4608-4621. *)
Fixpoint write_cols (nxyz : nat) (bwd : list (list nat)) (nrow start : nat) (buf : list D)
    (icol n : nat) (so : list D) : outcome (list D) :=
  match n with
  | O => Ret so
  | S n' =>
      obind (write_rows nxyz bwd icol nrow start buf 0 nrow so)
        (write_cols nxyz bwd nrow start buf (S icol) n')
  end.
(** The loop over workers, 4594-4624. *)
Fixpoint write_workers (nxyz : nat) (bwd : list (list nat)) (ncol : nat) (n_user : Z)
    (ws : list (gmap Z table)) (start : nat) (so : list D) : outcome (list D) :=
  match ws with
  | [] => Ret so
  | w :: ws' =>
      match w !! n_user with
      | None => Throw
      | Some t =>
          obind (doublize t) (fun '(nrow, _, buf) =>
          obind (write_cols nxyz bwd nrow start buf 0 ncol so)
            (write_workers nxyz bwd ncol n_user ws' (start + nrow)))
      end
  end.

(** vector::resize keeps the old values. *)
Definition resize_to (n : nat) (zero : D) (l : list D) : list D :=
  take n l ++ replicate (n - length l) zero.

(** GetSelectedOutput: the return code and [so].  [zero] is 0.0.  An exception after the resize
    leaves [so] partly written, which is not tracked: it is reported as [None]. *)
Definition get_selected_output (zero : D) (nxyz : nat) (bwd : list (list nat)) (cur : Z)
    (ws : list (gmap Z table)) (so : list D) : outcome (irm_result * option (list D)) :=
  if decide (cur < 0)%Z then Ret (IRM_FAIL, Some so)
  else match ws with
  | [] => UB
  | w0 :: _ =>
      match w0 !! cur with
      | None => Ret (IRM_FAIL, Some so)     (* resize(nxyz * negative) throws *)
      | Some t =>
          match write_workers nxyz bwd (col_count t) cur ws 0 (resize_to (nxyz * col_count t) zero so) with
          | Ret so' => Ret (IRM_OK, Some so')
          | Throw => Ret (IRM_FAIL, None)
          | UB => UB
          end
      end
  end.
End Numbers.

(** ** CheckSelectedOutput, thread build (916-1005) *)

(** The comparisons of definitions, columns and headings run over n < mpi_tasks, which is 1 in this
    build, so only the rows are counted.  [None] for a table that find did not find: undefined. *)
Fixpoint count_rows (n_user : Z) (ws : list (gmap Z table)) : outcome Z :=
  match ws with
  | [] => Ret 0%Z
  | w :: ws' =>
      match w !! n_user with
      | None => UB
      | Some t => obind (count_rows n_user ws') (fun s => Ret (Z.of_nat (row_count t) - 1 + s)%Z)
      end
  end.
Definition mpi_tasks : nat := 1.
Definition same_shape (a b : gmap Z table) : bool :=
  bool_decide (map (fun p => (p.1, t_head p.2)) (map_to_list a)
               = map (fun p => (p.1, t_head p.2)) (map_to_list b)).
Fixpoint check_counts (keys : list Z) (count_chem : Z) (ws : list (gmap Z table)) : outcome bool :=
  match keys with
  | [] => Ret true
  | k :: keys' =>
      obind (count_rows k ws) (fun s =>
        if decide (s = count_chem) then check_counts keys' count_chem ws else Ret false)
  end.
Definition check_selected_output (on : bool) (count_chem : Z) (ws : list (gmap Z table)) : outcome bool :=
  if negb on then Ret true
  else if decide (length ws <= 1) then Ret true
  else match ws with
  | [] => Ret true
  | w0 :: ws' =>
      if forallb (same_shape w0) (take (mpi_tasks - 1) ws')
      then check_counts (map fst (map_to_list w0)) count_chem ws else Ret false
  end.
End Tables.
