(** An IPhreeqc instance as a caller sees it: the accumulated input, the runs, the texts of messages and
    their lines, the list of components (src/IPhreeqcPhast/IPhreeqc/IPhreeqc.cpp; line numbers are of that
    file unless another is named).

    What the engine does in a run is arbitrary: a sequence of events, and whether the run came to its end or
    was stopped by error_msg(..., STOP). Files are left out; so are the tables of selected output (topic
    SelOut), of which only the effect of GetSelectedOutputValue on the messages is here. A message that
    PHRQ_io's switches log_on, output_on, punch_on suppress is no event. *)
From Coq Require Import Ascii String.
From stdpp Require Import prelude strings gmap.
Open Scope string_scope.
Open Scope list_scope.

Definition newline : ascii := Ascii.ascii_of_nat 10.
Definition nl : string := String newline EmptyString.

(** while (std::getline(iss, line)), e.g. 1500-1504: [cur] is the line read so far. A last line without
    newline counts if it has characters. *)
Fixpoint getlines (cur : string) (s : string) : list string :=
  match s with
  | EmptyString => if decide (cur = "") then [] else [cur]
  | String c s' => if decide (c = newline) then cur :: getlines "" s' else getlines (cur +:+ String c "") s'
  end.
Definition lines_in (s : string) : list string := getlines "" s.

Section Inst.
Context {E : Type}.

(** What the engine does: messages (1587-1673), definitions of selected outputs read, start of a simulation
    after its input was read (1223-1254), other changes of its definitions, a DUMP (1465-1489). *)
Inductive ev :=
  | Log (s : string) | Out (s : string) | Err (s : string) | Warn (s : string)
  | Punch (n : Z) (s : string) | Defs (l : gset Z) | Begin | Change (e : E) | Dump (append : bool) (s : string).

(** [i_err], [i_warn]: the streams of ErrorReporter and WarningReporter; [i_cur]:
    CurrentSelectedOutputUserNumber; [i_eng]: the definitions held by the engine; [i_defs]: the numbers in
    its SelectedOutput_map *)
Record inst := Inst {
  i_loaded : bool; i_clear : bool; i_update : bool; i_input : string; i_comps : list string;
  i_err : string; i_errlines : list string; i_warn : string; i_warnlines : list string;
  i_log : string; i_loglines : list string; i_out : string; i_outlines : list string;
  i_dump : string; i_dumplines : list string;
  i_sels : gmap Z string; i_sellines : gmap Z (list string); i_selon : gmap Z bool; i_cur : Z;
  i_logon : bool; i_outon : bool; i_erron : bool; i_dumpon : bool; i_errors : bool;
  i_defs : gset Z; i_eng : E
}.

Definition set_input (clear : bool) (t : string) (s : inst) : inst :=
  let (a, _, c, _, e, f, g, h, i, j, k, l, m, n, o, p, q, r, t0, u, v, w, x, y, z, z') := s in
  Inst a clear c t e f g h i j k l m n o p q r t0 u v w x y z z'.
Definition set_comps (update : bool) (t : list string) (s : inst) : inst :=
  let (a, b, _, d, _, f, g, h, i, j, k, l, m, n, o, p, q, r, t0, u, v, w, x, y, z, z') := s in
  Inst a b update d t f g h i j k l m n o p q r t0 u v w x y z z'.
Definition set_loaded (t : bool) (s : inst) : inst :=
  let (_, b, c, d, e, f, g, h, i, j, k, l, m, n, o, p, q, r, t0, u, v, w, x, y, z, z') := s in
  Inst t b c d e f g h i j k l m n o p q r t0 u v w x y z z'.
(** the two reporters *)
Definition set_reports (er wa : string) (s : inst) : inst :=
  let (a, b, c, d, e, _, g, _, i, j, k, l, m, n, o, p, q, r, t0, u, v, w, x, y, z, z') := s in
  Inst a b c d e er g wa i j k l m n o p q r t0 u v w x y z z'.
Definition set_report_lines (er wa : list string) (s : inst) : inst :=
  let (a, b, c, d, e, f, _, h, _, j, k, l, m, n, o, p, q, r, t0, u, v, w, x, y, z, z') := s in
  Inst a b c d e f er h wa j k l m n o p q r t0 u v w x y z z'.
Definition set_texts (lo ou : string) (s : inst) : inst :=
  let (a, b, c, d, e, f, g, h, i, _, k, _, m, n, o, p, q, r, t0, u, v, w, x, y, z, z') := s in
  Inst a b c d e f g h i lo k ou m n o p q r t0 u v w x y z z'.
Definition set_text_lines (lo ou : list string) (s : inst) : inst :=
  let (a, b, c, d, e, f, g, h, i, j, _, l, _, n, o, p, q, r, t0, u, v, w, x, y, z, z') := s in
  Inst a b c d e f g h i j lo l ou n o p q r t0 u v w x y z z'.
Definition set_dump (t : string) (ls : list string) (s : inst) : inst :=
  let (a, b, c, d, e, f, g, h, i, j, k, l, m, _, _, p, q, r, t0, u, v, w, x, y, z, z') := s in
  Inst a b c d e f g h i j k l m t ls p q r t0 u v w x y z z'.
Definition set_sels (t : gmap Z string) (ls : gmap Z (list string)) (s : inst) : inst :=
  let (a, b, c, d, e, f, g, h, i, j, k, l, m, n, o, _, _, r, t0, u, v, w, x, y, z, z') := s in
  Inst a b c d e f g h i j k l m n o t ls r t0 u v w x y z z'.
Definition set_selon (t : gmap Z bool) (cur : Z) (s : inst) : inst :=
  let (a, b, c, d, e, f, g, h, i, j, k, l, m, n, o, p, q, _, _, u, v, w, x, y, z, z') := s in
  Inst a b c d e f g h i j k l m n o p q t cur u v w x y z z'.
Definition set_flags (lo ou er du al : bool) (s : inst) : inst :=
  let (a, b, c, d, e, f, g, h, i, j, k, l, m, n, o, p, q, r, t0, _, _, _, _, _, z, z') := s in
  Inst a b c d e f g h i j k l m n o p q r t0 lo ou er du al z z'.
Definition set_engine (defs : gset Z) (en : E) (s : inst) : inst :=
  let (a, b, c, d, e, f, g, h, i, j, k, l, m, n, o, p, q, r, t0, u, v, w, x, y, _, _) := s in
  Inst a b c d e f g h i j k l m n o p q r t0 u v w x y defs en.

(** The engine, in arbitrary functions: what it does with an input, with a database ([true]: no error was
    counted), the definitions after init(), list_components, and the input that test_db (1055-1070) tries. *)
Record engine := Engine {
  drive : E -> string -> list ev * bool;
  read_db : string -> list ev * bool;
  start : E;
  components : E -> list string;
  probe : E -> string
}.

(** get_sel_out_string_on, 1837-1846: the argument is not used *)
Definition sel_on (n : Z) (s : inst) : bool := default false (i_selon s !! i_cur s).

(** IPhreeqc::log_msg 1587, output_msg 1646, error_msg 1597-1617, warning_msg 1625-1644, punch_msg 1661 and
    fpunchf 1764-1818; do_run's part at the start of a simulation and after a DUMP *)
Definition play (s : inst) (e : ev) : inst :=
  match e with
  | Log t => if i_logon s then set_texts (i_log s +:+ t) (i_out s) s else s
  | Out t => if i_outon s then set_texts (i_log s) (i_out s +:+ t) s else s
  | Err t => if i_erron s && i_errors s then set_reports (i_err s +:+ t) (i_warn s) s else s
  | Warn t => set_reports (i_err s) (i_warn s +:+ t) s
  | Punch n t => if sel_on n s then set_sels (<[n := default "" (i_sels s !! n) +:+ t]> (i_sels s)) (i_sellines s) s else s
  | Defs l => set_engine l (i_eng s) s
  | Begin => set_sels (foldr (fun n m => if decide (is_Some (m !! n)) then m else <[n := ""]> m) (i_sels s) (elements (i_defs s))) (i_sellines s) s
  | Change en => set_engine (i_defs s) en s
  | Dump append t =>
    if i_dumpon s then let d := if append then i_dump s +:+ t else t in set_dump d (lines_in d) s else s
  end.

(** 1560-1585; the test for an empty text changes nothing *)
Definition update_errors (s : inst) : inst := set_report_lines (lines_in (i_err s)) (lines_in (i_warn s)) s.

(** Phreeqc::error_msg with STOP, phreeqcpp/PHRQ_io_output.cpp 271-299 *)
Definition complain (t : string) (s : inst) : inst :=
  let m := "ERROR: " +:+ t +:+ nl in fold_left play [Out m; Log m; Err m] s.

(** check_database, 1153-1180, up to the test *)
Definition clear_results (s : inst) : inst :=
  set_text_lines [] [] (set_texts "" "" (set_sels ∅ ∅ (set_reports "" "" s))).

(** do_run, 1182-1557; the end, from 1511 on, is not reached by a stopped run *)
Definition line_up (s : inst) (n : Z) : inst :=
  if sel_on n s then
    match i_sels s !! n with
    | Some t => match lines_in t with
                | [] => s
                | ls => set_sels (i_sels s) (<[n := default [] (i_sellines s !! n) ++ ls]> (i_sellines s)) s
                end
    | None => s
    end
  else s.
Definition finish (s : inst) : inst :=
  let s := update_errors (set_comps true (i_comps s) s) in
  let s := if i_logon s then set_text_lines (i_loglines s ++ lines_in (i_log s)) (i_outlines s) s else s in
  let s := if i_outon s then set_text_lines (i_loglines s) (i_outlines s ++ lines_in (i_out s)) s else s in
  fold_left line_up (elements (i_defs s)) s.
Definition do_run (g : engine) (input : string) (s : inst) : inst * bool :=
  let q := drive g (i_eng s) input in
  let s := fold_left play q.1 s in
  if q.2 then (finish s, true) else (s, false).

(** RunAccumulated 735-794, RunFile 796-864, RunString 866-927, from check_database on. [input]: the text, or
    [None] if the file cannot be opened. The result: the instance, whether the run came to its end, and the
    texts that were given to the engine. *)
Definition run_text (g : engine) (name : string) (input : option string) (s : inst) : inst * bool * list string :=
  let s := clear_results s in
  let q := if i_loaded s then
             match input with
             | Some t => (do_run g t s, [t])
             | None => (complain (name +:+ ": Unable to open") s, false, [])
             end
           else (complain (name +:+ ": No database is loaded") s, false, []) in
  (update_errors q.1.1, q.1.2, q.2).

(** UnLoadDatabase, 1072-1127 *)
Definition unload (g : engine) (s : inst) : inst :=
  set_engine ∅ (start g) (set_dump "" [] (set_sels ∅ ∅ (set_selon {[1%Z := false]} 1%Z (set_reports "" ""
    (set_input false "" (set_comps true [] (set_loaded false s))))))).

(** ** The calls *)
Inductive op :=
  | Accumulate (line : string) | ClearLines | RunAcc | RunStr (t : string) | RunFil (t : option string)
  | LoadDb (db : option string) | Value (bad : option string) | AddErr (t : string) | AddWarn (t : string)
  | ListComps | SetCur (n : Z) | SetSelOn (b : bool) | SetOutOn (b : bool) | SetLogOn (b : bool)
  | SetDumpOn (b : bool) | SetErrOn (b : bool) | SetErrors (b : bool).

Definition step (g : engine) (s : inst) (o : op) : inst * bool * list string :=
  let plain s := (s, true, []) in
  match o with
  | Accumulate l =>  (* 95-117 *)
      let t := if i_clear s then "" else i_input s in
      plain (set_reports "" "" (set_input false (t +:+ l +:+ nl) s))
  | ClearLines => plain (set_input (i_clear s) "" s)  (* 129-132 *)
  | RunAcc =>
      let q := run_text g "RunAccumulated" (Some (i_input s)) s in
      (set_input true (i_input q.1.1) q.1.1, q.1.2, q.2)
  | RunStr t => run_text g "RunString" (Some t) (set_input false "" s)
  | RunFil f => run_text g "RunFile" f (set_input false "" s)
  | LoadDb db =>  (* LoadDatabase 578-648, LoadDatabaseString 650-712 *)
      let s := unload g s in
      let q := match db with
               | Some t => let q := read_db g t in (fold_left play q.1 s, q.2)
               | None => (complain "LoadDatabase: Unable to open" s, false)
               end in
      let s := set_loaded q.2 q.1 in
      if q.2 then run_text g "RunString" (Some (probe g (i_eng s))) (set_input false "" s) else (s, false, [])
  | Value None => plain (set_reports "" (i_warn s) s)  (* 442-493 *)
  | Value (Some t) => plain (update_errors (set_reports t (i_warn s) s))
  | AddErr t => plain (set_reports (i_err s +:+ t) (i_warn s) s)
  | AddWarn t => plain (set_reports (i_err s) (i_warn s +:+ t) s)
  | ListComps =>  (* 561-576 *)
      plain (if i_update s then set_comps false (components g (i_eng s)) s else s)
  | SetCur n => plain (if (0 <=? n)%Z then set_selon (i_selon s) n s else s)  (* 944-952 *)
  | SetSelOn b => plain (set_selon (<[i_cur s := b]> (i_selon s)) (i_cur s) s)  (* 1050-1053 *)
  | SetOutOn b => plain (set_flags (i_logon s) b (i_erron s) (i_dumpon s) (i_errors s) s)
  | SetLogOn b => plain (set_flags b (i_outon s) (i_erron s) (i_dumpon s) (i_errors s) s)
  | SetDumpOn b => plain (set_flags (i_logon s) (i_outon s) (i_erron s) b (i_errors s) s)
  | SetErrOn b => plain (set_flags (i_logon s) (i_outon s) b (i_dumpon s) (i_errors s) s)
  | SetErrors b => plain (set_flags (i_logon s) (i_outon s) (i_erron s) (i_dumpon s) b s)
  end.

(** The constructor, 23-66 (ErrorOn is set in the constructor of PHRQ_io) *)
Definition create (g : engine) : inst :=
  Inst false false true "" [] "" [] "" [] "" [] "" [] "" [] ∅ ∅ {[1%Z := false]} 1%Z false false true false true ∅ (start g).
Definition after (g : engine) (h : list op) : inst := fold_left (fun s o => (step g s o).1.1) h (create g).

(** ** What is asked *)
Definition error_string (s : inst) : string :=  (* 221-235 *)
  if i_errors s then (if i_erron s then i_err s else "GetErrorString: ErrorStringOn not set." +:+ nl)
  else "GetErrorString: ErrorOn not set." +:+ nl.
Definition output_string (s : inst) : string :=  (* 327-335 *)
  if i_outon s then i_out s else "GetOutputString: OutputStringOn not set." +:+ nl.
Definition log_string (s : inst) : string :=  (* 272-280 *)
  if i_logon s then i_log s else "GetLogString: LogStringOn not set." +:+ nl.
Definition dump_string (s : inst) : string :=  (* 176-184 *)
  if i_dumpon s then i_dump s else "GetDumpString: DumpStringOn not set." +:+ nl.
(** 399-413: whether there is an entry counts, not its value *)
Definition selected_string (s : inst) : string :=
  match i_selon s !! i_cur s with
  | None => "GetSelectedOutputString: SelectedOutputStringOn not set." +:+ nl
  | Some _ => default "" (i_sels s !! i_cur s)
  end.
(** 415-435 *)
Definition selected_lines (s : inst) : list string := default [] (i_sellines s !! i_cur s).
(** Get...StringLine(n), e.g. 237-245 *)
Definition line (ls : list string) (n : Z) : string :=
  if ((n <? 0) || (Z.of_nat (length ls) <=? n))%Z then "" else nth (Z.to_nat n) ls "".
End Inst.
Arguments ev : clear implicits.
Arguments inst : clear implicits.
Arguments engine : clear implicits.
