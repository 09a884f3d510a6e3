(** Writing reactants to a dump file (the _RAW formats) and reading them back: dump_raw and read_raw of
    the classes of src/IPhreeqcPhast/IPhreeqc/phreeqcpp, common/Parser.cxx, and Rxn_read_raw in
    Phreeqc.h.

    A line is the list of its tokens: words, doubles and integers. Indentation, comment lines and the
    padding between tokens are left out; names are taken to hold no '#', ';' or backslash (which end or
    join lines). Doubles are values of an abstract type [D]; [lit] gives the value of a literal of the
    source, [dcmp] the order of doubles, and [rnd x] is what is read after [x] was printed with
    DBL_DIG - 1 = 14 digits. Doubles are taken to be finite ("nan" and "inf" are not read by operator>>).
    The readers count the error reports; the run fails unless there are none (get_input_errors). *)
From Coq Require Import Ascii String.
From stdpp Require Import prelude strings gmap.
From Verif.Names Require Import Model.
From Verif.Reactant Require Import Model.
From Verif.Transfer Require Import Model.
From Verif.Raw Require Import Fields.

(** ** Words, options, keywords *)

(** isspace *)
Definition blank (c : ascii) : bool :=
  let n := nat_of_ascii c in bool_decide (n = 32) || (bool_decide (9 <= n) && bool_decide (n <= 13)).
(** the words of a text, as operator>>(std::string) finds them *)
Fixpoint words_from (w : string) (s : string) : list string :=
  match s with
  | EmptyString => if decide (w = EmptyString) then [] else [w]
  | String c s' =>
      if blank c then (if decide (w = EmptyString) then words_from EmptyString s' else w :: words_from EmptyString s')
      else words_from (w ++ String c EmptyString) s'
  end.
Definition words (s : string) : list string := words_from EmptyString s.
(** description: leading blanks are skipped (NumKeyword.cxx 90-96, 183-189) *)
Fixpoint trim_left (s : string) : string :=
  match s with String c s' => if blank c then trim_left s' else s | EmptyString => s end.

(** Parser.cxx 273: '-' and a letter *)
Definition letter (c : ascii) : bool :=
  let n := nat_of_ascii c in
  (bool_decide (65 <= n) && bool_decide (n <= 90)) || (bool_decide (97 <= n) && bool_decide (n <= 122)).
Definition dashed (s : string) : option string :=
  match s with
  | String d (String c s') => if Ascii.eqb d "-" && letter c then Some (String c s') else None
  | _ => None
  end.

(** PhreeqcKeywords/Keywords.cpp: the names in phreeqc_keywords *)
Definition keywords : list string := [
  "eof"; "end"; "solution_species"; "solution_master_species"; "solution"; "phases"; "pure_phases";
  "reaction"; "mix"; "use"; "save"; "exchange_species"; "exchange_master_species"; "exchange";
  "surface_species"; "surface_master_species"; "surface"; "reaction_temperature"; "inverse_modeling";
  "gas_phase"; "transport"; "debug"; "selected_output"; "select_output"; "knobs"; "print";
  "equilibrium_phases"; "equilibria"; "equilibrium"; "pure"; "title"; "comment"; "advection"; "kinetics";
  "incremental_reactions"; "incremental"; "rates"; "solution_s"; "user_print"; "user_punch";
  "solid_solutions"; "solid_solution"; "solution_spread"; "spread_solution"; "selected_out"; "select_out";
  "user_graph"; "llnl_aqueous_model_parameters"; "llnl_aqueous_model"; "database";
  "named_analytical_expression"; "named_analytical_expressions"; "named_expressions"; "named_log_k";
  "isotopes"; "calculate_values"; "isotope_ratios"; "isotope_alphas"; "copy"; "pitzer"; "sit";
  "equilibrium_phase"; "solution_raw"; "exchange_raw"; "surface_raw"; "equilibrium_phases_raw";
  "kinetics_raw"; "solid_solutions_raw"; "gas_phase_raw"; "reaction_raw"; "mix_raw";
  "reaction_temperature_raw"; "dump"; "solution_modify"; "equilibrium_phases_modify"; "exchange_modify";
  "surface_modify"; "solid_solutions_modify"; "gas_phase_modify"; "kinetics_modify"; "delete"; "run_cells";
  "reaction_modify"; "reaction_temperature_modify"; "solid_solution_modify"; "reaction_pressure";
  "reaction_pressures"; "reaction_pressure_raw"; "reaction_pressure_modify"; "rate_parameters_pk";
  "rate_parameters_svd"; "rate_parameters_hermanska"; "mean_gammas"; "gas_binary_parameters";
  "solution_mix"; "mix_solution"; "exchange_mix"; "mix_exchange"; "gas_phase_mix"; "mix_gas_phase";
  "kinetics_mix"; "mix_kinetics"; "equilibrium_phases_mix"; "mix_equilibrium_phases";
  "equilibrium_phase_mix"; "mix_equilibrium_phase"; "solid_solutions_mix"; "mix_solid_solutions";
  "solid_solution_mix"; "mix_solid_solution"; "surface_mix"; "mix_surface"]%string.
(** CParser::check_key, Parser.cxx 366-378 *)
Definition keyword (s : string) : bool := existsb (String.eqb (lowered s)) keywords.

(** CParser::find_option, Parser.cxx 628-655: the first entry of the list that is the item, or that
    starts with it *)
Fixpoint find_option (exact : bool) (item : string) (l : list string) (i : nat) : option nat :=
  match l with
  | [] => None
  | o :: l' =>
      if (if exact then String.eqb o item else String.prefix item o) then Some i
      else find_option exact item l' (S i)
  end.

Section Raw.
Context {D : Type} (dcmp : D -> D -> comparison) (lit : string -> D) (rnd : D -> D).
Local Notation exch_comp := (@Verif.Transfer.Model.exch_comp D).
Local Notation exchange := (@Verif.Transfer.Model.exchange D).
Local Notation gas_comp := (@Verif.Transfer.Model.gas_comp D).
Local Notation gas_phase := (@Verif.Transfer.Model.gas_phase D).
Local Notation kin_comp := (@Verif.Transfer.Model.kin_comp D).
Local Notation kinetics := (@Verif.Transfer.Model.kinetics D).
Local Notation pp_comp := (@Verif.Transfer.Model.pp_comp D).
Local Notation pp_assemblage := (@Verif.Transfer.Model.pp_assemblage D).
Local Notation ss_comp := (@Verif.Transfer.Model.ss_comp D).
Local Notation solid := (@Verif.Transfer.Model.solid D).
Local Notation ss_assemblage := (@Verif.Transfer.Model.ss_assemblage D).
Local Notation surf_comp := (@Verif.Transfer.Model.surf_comp D).
Local Notation surf_charge := (@Verif.Transfer.Model.surf_charge D).
Local Notation surface := (@Verif.Transfer.Model.surface D).
Local Notation isotope := (@Verif.Transfer.Model.isotope D).
Local Notation solution := (@Verif.Transfer.Model.solution D).
Local Notation steps := (@Verif.Transfer.Model.steps D).
Local Notation mixture := (@Verif.Transfer.Model.mixture D).
Local Notation reaction := (@Verif.Transfer.Model.reaction D).
Local Notation reactants := (@Verif.Transfer.Model.reactants D).

Inductive tok := W (s : string) | N (d : D) | I (z : Z).

(** CParser::get_option, Parser.cxx 758-826, and getOptionFromLastLine, 1130-1228, on a line that is
    not blank: OPT_KEYWORD, OPT_ERROR, OPT_DEFAULT or the number of the option, and what follows *)
Inductive code := Key | Unknown | Plain | Opt (i : nat).
Definition get_option (opts : list string) (l : list tok) : code * list tok :=
  match l with
  | W s :: args =>
      if keyword s then (Key, l)
      else match dashed s with
           | Some o => match find_option false (lowered o) opts 0 with
                       | Some i => (Opt i, args)
                       | None => (Unknown, l)
                       end
           | None => match find_option true (lowered s) opts 0 with
                     | Some i => (Opt i, args)
                     | None => (Plain, l)
                     end
           end
  | _ => (Plain, l)
  end.

(** ** The loop of a read_raw *)

(** The members read so far, opt_save, the options that were seen (the *_defined flags), and the number
    of error reports. *)
Record ost (A : Type) := OS { o_val : A; o_save : option nat; o_seen : list nat; o_err : nat }.
Arguments OS {A}. Arguments o_val {A}. Arguments o_save {A}. Arguments o_seen {A}. Arguments o_err {A}.
Definition fresh {A} (x : A) : ost A := OS x None [] 0.

(** What a case of the switch does with opt_save: nothing, or set it to OPT_DEFAULT, or to its option *)
Inductive keep := Keep | Drop | Save.

(** A class: vopts, the options that must be seen if [check], and the cases of the switch. *)
Record cls (A : Type) := Cls {
  c_opts : list string; c_need : list nat; c_act : nat -> list tok -> A -> A * nat * keep
}.
Arguments Cls {A}. Arguments c_opts {A}. Arguments c_need {A}. Arguments c_act {A}.

Definition saw (i : nat) (l : list nat) : list nat := if existsb (Nat.eqb i) l then l else i :: l.
(** the switch for option [i] *)
Definition act {A} (c : cls A) (i : nat) (args : list tok) (s : ost A) : ost A :=
  let '(x, e, k) := c_act c i args (o_val s) in
  OS x (match k with Keep => o_save s | Drop => None | Save => Some i end) (saw i (o_seen s)) (o_err s + e).

(** One pass of the loop; [None]: the loop ends with this line, which the caller looks at again
    (useLastLine). A line without an option is taken for opt_save. *)
Definition own_line {A} (c : cls A) (s : ost A) (l : list tok) : option (ost A) :=
  match get_option (c_opts c) l with
  | (Opt i, args) => Some (act c i args s)
  | (Plain, args) => match o_save s with Some i => Some (act c i args s) | None => None end
  | _ => None
  end.
(** after the loop: one report for each member that must be defined and is not *)
Definition missing {A} (c : cls A) (s : ost A) : nat :=
  length (filter (fun i => existsb (Nat.eqb i) (o_seen s) = false) (c_need c)).

(** A class with components: some options ([opens]) create a component and call its read_raw. The call
    is not nested here: the state of the component is kept in the state of the loop until a line ends
    it; then [close] stores it, and the line is looked at again. *)
Definition pst (A B : Type) : Type := ost A * option B.
Definition settle {A B} (close : B -> ost A -> ost A) (s : pst A B) : ost A :=
  match s.2 with Some b => close b s.1 | None => s.1 end.
Definition top_line {A B} (c : cls A) (opens : nat -> list tok -> ost A -> option (ost A * B))
    (o : ost A) (l : list tok) : option (pst A B) :=
  match get_option (c_opts c) l with
  | (Opt i, args) => match opens i args o with
                     | Some (o', b) => Some (o', Some b)
                     | None => Some (act c i args o, None)
                     end
  | _ => option_map (fun o' => (o', None)) (own_line c o l)
  end.
Definition parent_line {A B} (c : cls A) (opens : nat -> list tok -> ost A -> option (ost A * B))
    (sub : B -> list tok -> option B) (close : B -> ost A -> ost A) (s : pst A B) (l : list tok)
    : option (pst A B) :=
  match s.2 with
  | Some b => match sub b l with
              | Some b' => Some (s.1, Some b')
              | None => top_line c opens (close b s.1) l
              end
  | None => top_line c opens s.1 l
  end.

(** The loop over the lines; blank lines are skipped (Parser.cxx 196-240). The rest starts with the
    line that ended it. *)
Fixpoint run {S} (f : S -> list tok -> option S) (s : S) (ls : list (list tok)) : S * list (list tok) :=
  match ls with
  | [] => (s, [])
  | l :: ls' =>
      if decide (l = []) then run f s ls'
      else match f s l with Some s' => run f s' ls' | None => (s, ls) end
  end.
(** case OPT_ERROR of a class that is not a component: "Unknown input" *)
Definition unknown (rest : list (list tok)) : nat :=
  match rest with
  | [] => 0
  | l :: _ => match (get_option [] l).1 with Key => 0 | _ => 1 end
  end.

(** ** Reading members: operator>>, with the value given to the member if there is none *)
Definition a_dbl {A} (set : D -> A -> A) (d : string) (args : list tok) (x : A) : A * nat :=
  match args with N v :: _ => (set v x, 0) | _ => (set (lit d) x, 1) end.
Definition a_bool {A} (set : bool -> A -> A) (args : list tok) (x : A) : A * nat :=
  match args with
  | I z :: _ => if (z =? 0)%Z then (set false x, 0) else if (z =? 1)%Z then (set true x, 0) else (set false x, 1)
  | _ => (set false x, 1)
  end.
Definition a_int {A} (set : Z -> A -> A) (args : list tok) (x : A) : A * nat :=
  match args with I z :: _ => (set z x, 0) | _ => (x, 1) end.
Definition a_word {A} (set : string -> A -> A) (args : list tok) (x : A) : A * nat :=
  match args with W s :: _ => (set s x, 0) | _ => (set EmptyString x, 1) end.
(** an int that is then compared with 0 *)
Definition a_flag {A} (set : bool -> A -> A) (args : list tok) (x : A) : A * nat :=
  match args with I z :: _ => (set (negb (z =? 0)%Z) x, 0) | _ => (x, 1) end.
(** cxxNameDouble::read_raw, NameDouble.cxx 179-197 *)
Definition a_names {A} (get : A -> nmap D) (set : nmap D -> A -> A) (args : list tok) (x : A) : A * nat :=
  match args with
  | [] => (x, 0)
  | W n :: N v :: _ => (set (nd_set n v (get x)) x, 0)
  | _ => (x, 1)
  end.
(** a map from species numbers to doubles (Solution.cxx 1002-1020, SurfaceCharge.cxx 342-361) *)
Definition a_imap {A} (get : A -> list (Z * D)) (set : list (Z * D) -> A -> A) (args : list tok) (x : A)
    : A * nat :=
  match args with
  | [] => (x, 0)
  | I n :: N v :: _ => (set (kset Z.compare n v (get x)) x, 0)
  | _ => (x, 1)
  end.
(** while (copy_token() == TT_DIGIT) push_back *)
Fixpoint numbers (args : list tok) : list D :=
  match args with N v :: args' => v :: numbers args' | _ => [] end.

Definition kept {A} (r : A * nat) : A * nat * keep := (r, Keep).
Definition dropped {A} (r : A * nat) : A * nat * keep := (r, Drop).
Definition saved {A} (r : A * nat) : A * nat * keep := (r, Save).
(** a case that only writes a warning *)
Definition ignored {A} (x : A) : A * nat * keep := (x, 0, Keep).

(** ** Writing: the name of an option and what follows it *)
Definition ws (s : string) : list tok := W <$> words s.
Definition yes (b : bool) : tok := I (if b then 1 else 0)%Z.
Definition num (d : D) : tok := N (rnd d).
Definition opt (o : string) (args : list tok) : list tok := W ("-" ++ o) :: args.
(** cxxNameDouble::dump_raw, NameDouble.cxx 156-177 *)
Definition names_lines (l : nmap D) : list (list tok) := (fun p => ws p.1 ++ [num p.2]) <$> l.
Definition imap_lines (l : list (Z * D)) : list (list tok) := (fun p => [I p.1; num p.2]) <$> l.
(** if (s.size() != 0) *)
Definition opt_word (o s : string) : list (list tok) :=
  if decide (s = EmptyString) then [] else [opt o (ws s)].
(** KineticsComp.cxx 75-89, cxxKinetics.cxx 132-147: if (i++ == 5) a new line, i = 0 *)
Fixpoint wrap (i : nat) (cur : list tok) (l : list D) : list (list tok) :=
  match l with
  | [] => [cur]
  | d :: l' => if decide (i = 5) then cur :: wrap 0 [num d] l' else wrap (S i) (cur ++ [num d]) l'
  end.

(** ** Exchange *)

Definition exch_comp_lines (x : exch_comp) : list (list tok) :=  (* ExchComp.cxx 85-121 *)
  opt "totals" [] :: names_lines (ec_totals x) ++
  [opt "charge_balance" [num (ec_cb x)]; opt "la" [num (ec_la x)]] ++
  opt_word "phase_name" (ec_phase x) ++ opt_word "rate_name" (ec_rate x) ++
  [opt "phase_proportion" [num (ec_prop x)]; opt "formula_z" [num (ec_z x)]].
(** ExchComp.cxx 124-285, vopts 389-402 *)
Definition exch_comp_cls : cls exch_comp := Cls
  ["formula"; "moles"; "la"; "charge_balance"; "phase_name"; "rate_name"; "formula_z";
   "phase_proportion"; "totals"; "formula_totals"]%string
  [2; 3; 6]
  (fun i a x => match i with
   | 2 => kept (a_dbl set_ec_la "0" a x)
   | 3 => kept (a_dbl set_ec_cb "0" a x)
   | 4 => kept (a_word set_ec_phase a x)
   | 5 => kept (a_word set_ec_rate a x)
   | 6 => kept (a_dbl set_ec_z "0" a x)
   | 7 => kept (a_dbl set_ec_prop "0" a x)
   | 8 => saved (a_names ec_totals set_ec_totals a x)
   | _ => ignored x
   end).
Definition new_exch_comp (s : string) : exch_comp :=  (* ExchComp.cxx 30-41, Set_formula *)
  let z := lit "0" in ExchComp s [] z z EmptyString z EmptyString z.

(** Exchange.cxx 128-170 *)
Definition exchange_lines (x : exchange) : list (list tok) :=
  [opt "exchange_gammas" [yes (ex_pitzer x)]] ++
  flat_map (fun c => opt "component" (ws (ec_formula c)) :: exch_comp_lines c) (ex_comps x) ++
  [opt "new_def" [I 0]; opt "solution_equilibria" [I 0]; opt "n_solution" [I (ex_soln x)]; opt "totals" []] ++
  names_lines (ex_totals x).
(** Exchange.cxx 172-318, vopts 459-468; option 1 without a name is an error *)
Definition exchange_cls : cls exchange := Cls
  ["pitzer_exchange_gammas"; "component"; "exchange_gammas"; "new_def"; "solution_equilibria"; "n_solution";
   "totals"]%string
  [2]
  (fun i a x => match i with
   | 0 | 2 => kept (a_bool set_ex_pitzer a x)
   | 3 => kept (a_bool set_ex_new a x)
   | 4 => kept (a_bool set_ex_equil a x)
   | 5 => kept (a_int set_ex_soln a x)
   | 6 => kept (a_names ex_totals set_ex_totals a x)
   | _ => (x, 1, Keep)
   end).
(** The component being read and whether one was found (comp_ptr). Find_comp, 378-393, looks for a
    component whose totals have an entry of that name. *)
Definition exch_found (s : string) (x : exchange) : option exch_comp :=
  list_find (fun c => existsb (fun p => String.eqb p.1 s) (ec_totals c) = true) (ex_comps x) ≫= fun p => Some p.2.
Definition exchange_opens (i : nat) (args : list tok) (o : ost exchange)
    : option (ost exchange * (string * bool * ost exch_comp)) :=
  match i, args with
  | 1, W s :: _ =>
      Some (o, match exch_found s (o_val o) with
               | Some c => (s, true, fresh c)
               | None => (s, false, fresh (new_exch_comp s))
               end)
  | _, _ => None
  end.
(** strcmp_nocase(a, b) == 0 *)
Definition same_name (a b : string) : bool := String.eqb (lowered a) (lowered b).
(** the loop that replaces a component, or push_back (Exchange.cxx 240-252 and the like) *)
Definition put {A} (name : A -> string) (s : string) (found : bool) (c : A) (l : list A) : list A :=
  if found then (fun d => if same_name (name d) s then c else d) <$> l else l ++ [c].
Definition exchange_close (b : string * bool * ost exch_comp) (o : ost exchange) : ost exchange :=
  let '(s, found, c) := b in
  OS (set_ex_comps (put ec_formula s found (o_val c) (ex_comps (o_val o))) (o_val o)) (o_save o) (o_seen o)
     (o_err o + o_err c + missing exch_comp_cls c).
Definition exch_sub (b : string * bool * ost exch_comp) (l : list tok)
    : option (string * bool * ost exch_comp) :=
  option_map (fun c => (b.1, c)) (own_line exch_comp_cls b.2 l).
(** Sort_comps: through a std::map from formulas to components *)
Definition sort_by {A} (name : A -> string) (l : list A) : list A :=
  (fold_left (fun m c => nd_set (name c) c m) l []).*2.
Definition new_exchange (n : Z) (text : string) : exchange :=  (* Exchange.cxx 30-40, 183-184 *)
  Exchange n n (trim_left text) [] true false false (-999)%Z [].
Definition read_exchange (n : Z) (text : string) (ls : list (list tok)) : exchange * nat :=
  let r := run (parent_line exchange_cls exchange_opens exch_sub exchange_close)
             (fresh (new_exchange n text), None) ls in
  let o := settle exchange_close r.1 in
  (set_ex_comps (sort_by ec_formula (ex_comps (o_val o))) (o_val o),
   o_err o + unknown r.2 + missing exchange_cls o).

(** ** Gas phase *)

Definition gas_comp_lines (x : gas_comp) : list (list tok) := [  (* GasComp.cxx 48-71 *)
  opt "moles" [num (gc_moles x)]; opt "p_read" [num (gc_pread x)]; opt "initial_moles" [num (gc_init x)];
  opt "p" [num (gc_p x)]; opt "phi" [num (gc_phi x)]; opt "f" [num (gc_f x)]].
(** GasComp.cxx 73-185, vopts 254-264; called with check = false *)
Definition gas_comp_cls : cls gas_comp := Cls
  ["phase_name"; "name"; "p_read"; "moles"; "initial_moles"; "p"; "phi"; "f"]%string
  []
  (fun i a x => match i with
   | 2 => kept (a_dbl set_gc_pread "0" a x)
   | 3 => kept (a_dbl set_gc_moles "0" a x)
   | 4 => kept (a_dbl set_gc_init "0" a x)
   | 5 => kept (a_dbl set_gc_p "0" a x)
   | 6 => kept (a_dbl set_gc_phi "0" a x)
   | 7 => kept (a_dbl set_gc_f "0" a x)
   | _ => ignored x
   end).
Definition new_gas_comp (s : string) : gas_comp :=  (* GasComp.cxx 30-42 *)
  let z := lit "0" in GasComp s z z z z z z.

Definition gas_type (k : gp_type) : Z := match k with GP_PRESSURE => 0 | GP_VOLUME => 1 | GP_UNKNOWN => 2 end.
(** GasPhase.cxx 158-211 *)
Definition gas_phase_lines (x : gas_phase) : list (list tok) :=
  [opt "type" [I (gas_type (gp_kind x))]; opt "total_p" [num (gp_total_p x)]; opt "volume" [num (gp_vol x)]] ++
  flat_map (fun c => opt "component" (ws (gc_name c)) :: gas_comp_lines c) (gp_comps x) ++
  [opt "new_def" [yes (gp_new x)]; opt "solution_equilibria" [yes (gp_equil x)];
   opt "n_solution" [I (gp_soln x)]; opt "temperature" [num (gp_temp x)]; opt "total_moles" [num (gp_moles x)];
   opt "v_m" [num (gp_vm x)]; opt "pr_in" [yes (gp_pr x)]; opt "totals" []] ++
  names_lines (gp_totals x).
(** case 0: a number that is no enumerator is not written *)
Definition a_kind (args : list tok) (x : gas_phase) : gas_phase * nat :=
  match args with
  | I z :: _ => (set_gp_kind (if (z =? 0)%Z then GP_PRESSURE else if (z =? 1)%Z then GP_VOLUME else GP_UNKNOWN) x, 0)
  | _ => (set_gp_kind GP_PRESSURE x, 1)
  end.
(** GasPhase.cxx 213-450, vopts 644-659 *)
Definition gas_phase_cls : cls gas_phase := Cls
  ["type"; "total_p"; "volume"; "v_m"; "component"; "pressure"; "pr_in"; "new_def"; "solution_equilibria";
   "n_solution"; "total_moles"; "temperature"; "totals"]%string
  [0; 1; 2]
  (fun i a x => match i with
   | 0 => kept (a_kind a x)
   | 1 | 5 => kept (a_dbl set_gp_total_p "0" a x)
   | 2 => kept (a_dbl set_gp_vol "0" a x)
   | 3 => kept (a_dbl set_gp_vm "0" a x)
   | 4 => (x, 1, Drop)
   | 6 => kept (a_flag set_gp_pr a x)
   | 7 => kept (a_flag set_gp_new a x)
   | 8 => kept (a_flag set_gp_equil a x)
   | 9 => kept (a_int set_gp_soln a x)
   | 10 => kept (a_dbl set_gp_moles "0" a x)
   | 11 => kept (a_dbl set_gp_temp "0" a x)
   | 12 => saved (a_names gp_totals set_gp_totals a x)
   | _ => ignored x
   end).
(** A list of components that are found by name, ignoring case; [check] is false. *)
Definition named_found {A} (name : A -> string) (s : string) (l : list A) : option A :=
  list_find (fun c => same_name (name c) s = true) l ≫= fun p => Some p.2.
Definition gas_opens (i : nat) (args : list tok) (o : ost gas_phase)
    : option (ost gas_phase * (string * bool * ost gas_comp)) :=
  match i, args with
  | 4, W s :: _ =>
      Some (OS (o_val o) None (o_seen o) (o_err o),
            match named_found gc_name s (gp_comps (o_val o)) with
            | Some c => (s, true, fresh c)
            | None => (s, false, fresh (new_gas_comp s))
            end)
  | _, _ => None
  end.
Definition gas_close (b : string * bool * ost gas_comp) (o : ost gas_phase) : ost gas_phase :=
  let '(s, found, c) := b in
  OS (set_gp_comps (put gc_name s found (o_val c) (gp_comps (o_val o))) (o_val o)) (o_save o) (o_seen o)
     (o_err o + o_err c).
Definition gas_sub (b : string * bool * ost gas_comp) (l : list tok) : option (string * bool * ost gas_comp) :=
  option_map (fun c => (b.1, c)) (own_line gas_comp_cls b.2 l).
Definition new_gas_phase (n : Z) (text : string) : gas_phase :=  (* GasPhase.cxx 29-45 *)
  GasPhase n n (trim_left text) GP_PRESSURE (lit "1.0") (lit "1.0") [] false false (-999)%Z (lit "298.15")
    (lit "0.0") (lit "0") false [].
Definition read_gas_phase (n : Z) (text : string) (ls : list (list tok)) : gas_phase * nat :=
  let r := run (parent_line gas_phase_cls gas_opens gas_sub gas_close) (fresh (new_gas_phase n text), None) ls in
  let o := settle gas_close r.1 in
  (o_val o, o_err o + unknown r.2 + missing gas_phase_cls o).

(** ** Kinetics *)

Definition kin_comp_lines (x : kin_comp) : list (list tok) :=  (* KineticsComp.cxx 47-94 *)
  [opt "tol" [num (kc_tol x)]; opt "m" [num (kc_m x)]; opt "m0" [num (kc_m0 x)]; opt "namecoef" []] ++
  names_lines (kc_coef x) ++ [opt "d_params" []] ++ wrap 0 [] (kc_d x) ++
  [opt "moles" [num (kc_moles x)]; opt "initial_moles" [num (kc_init x)]].
(** KineticsComp.cxx 96-250, vopts 311-320, called with check = false; the second member of the state is
    temp_d_params *)
Definition on_kin (f : kin_comp -> kin_comp * nat) (x : kin_comp * list D) : (kin_comp * list D) * nat :=
  let r := f x.1 in ((r.1, x.2), r.2).
Definition kin_comp_cls : cls (kin_comp * list D) := Cls
  ["rate_name_not_used"; "tol"; "m"; "m0"; "moles"; "namecoef"; "d_params"; "initial_moles"]%string
  []
  (fun i a x => match i with
   | 1 => kept (on_kin (a_dbl set_kc_tol "0" a) x)
   | 2 => kept (on_kin (a_dbl set_kc_m "0" a) x)
   | 3 => kept (on_kin (a_dbl set_kc_m0 "0" a) x)
   | 4 => kept (on_kin (a_dbl set_kc_moles "0" a) x)
   | 5 => saved (on_kin (a_names kc_coef set_kc_coef a) x)
   | 6 => saved ((x.1, x.2 ++ numbers a), 0)
   | 7 => kept (on_kin (a_dbl set_kc_init "0" a) x)
   | _ => ignored x
   end).
Definition new_kin_comp (s : string) : kin_comp :=  (* KineticsComp.cxx 29-42 *)
  KinComp s [] (lit "1e-8") (lit "-1") (lit "-1") [] [] (lit "0.0") (lit "0") [].
Definition kin_comp_done (x : kin_comp * list D) : kin_comp :=
  if decide (length x.2 = 0) then x.1 else set_kc_d x.2 x.1.

(** cxxKinetics.cxx 80-160 *)
Definition kinetics_lines (x : kinetics) : list (list tok) :=
  [opt "step_divide" [num (ki_divide x)]; opt "rk" [I (ki_rk x)]; opt "bad_step_max" [I (ki_bad x)];
   opt "use_cvode" [yes (ki_cvode x)]; opt "cvode_steps" [I (ki_cv_steps x)]; opt "cvode_order" [I (ki_cv_order x)]] ++
  flat_map (fun c => opt "component" (ws (kc_rate c)) :: kin_comp_lines c) (ki_comps x) ++
  [opt "equal_increments" [yes (ki_equal x)]; opt "count" [I (ki_count x)]; opt "steps" []] ++
  wrap 0 [] (ki_steps x) ++ [opt "totals" []] ++ names_lines (ki_totals x).
Definition on_kinetics (f : kinetics -> kinetics * nat) (x : kinetics * list D) : (kinetics * list D) * nat :=
  let r := f x.1 in ((r.1, x.2), r.2).
(** cxxKinetics.cxx 161-421, vopts 606-620; the second member of the state is temp_steps *)
Definition kinetics_cls : cls (kinetics * list D) := Cls
  ["step_divide"; "rk"; "bad_step_max"; "use_cvode"; "component"; "totals"; "steps"; "cvode_steps";
   "cvode_order"; "equalincrements"; "count"; "equal_increments"]%string
  [0; 1; 2; 3; 7; 8]
  (fun i a x => match i with
   | 0 => kept (on_kinetics (a_dbl set_ki_divide "1.0" a) x)
   | 1 => kept (on_kinetics (a_int set_ki_rk a) x)
   | 2 => kept (on_kinetics (a_int set_ki_bad a) x)
   | 3 => kept (on_kinetics (a_bool set_ki_cvode a) x)
   | 4 => (x, 1, Keep)
   | 5 => saved (on_kinetics (a_names ki_totals set_ki_totals a) x)
   | 6 => saved ((x.1, x.2 ++ numbers a), 0)
   | 7 => kept (on_kinetics (a_int set_ki_cv_steps a) x)
   | 8 => kept (on_kinetics (a_int set_ki_cv_order a) x)
   | 9 | 11 => kept (on_kinetics (a_bool set_ki_equal a) x)
   | 10 => kept (on_kinetics (a_int set_ki_count a) x)
   | _ => ignored x
   end).
Definition kinetics_opens (i : nat) (args : list tok) (o : ost (kinetics * list D))
    : option (ost (kinetics * list D) * (string * bool * ost (kin_comp * list D))) :=
  match i, args with
  | 4, W s :: _ =>
      Some (o, match named_found kc_rate s (ki_comps (o_val o).1) with
               | Some c => (s, true, fresh (c, []))
               | None => (s, false, fresh (new_kin_comp s, []))
               end)
  | _, _ => None
  end.
Definition kinetics_close (b : string * bool * ost (kin_comp * list D)) (o : ost (kinetics * list D))
    : ost (kinetics * list D) :=
  let '(s, found, c) := b in
  OS (set_ki_comps (put kc_rate s found (kin_comp_done (o_val c)) (ki_comps (o_val o).1)) (o_val o).1, (o_val o).2)
     (o_save o) (o_seen o) (o_err o + o_err c).
Definition kin_sub (b : string * bool * ost (kin_comp * list D)) (l : list tok)
    : option (string * bool * ost (kin_comp * list D)) :=
  option_map (fun c => (b.1, c)) (own_line kin_comp_cls b.2 l).
Definition new_kinetics (n : Z) (text : string) : kinetics :=  (* cxxKinetics.cxx 30-45 *)
  Kinetics n n (trim_left text) [] [] 0%Z false (lit "1.0") 3%Z 500%Z false 100%Z 5%Z [].
Definition read_kinetics (n : Z) (text : string) (ls : list (list tok)) : kinetics * nat :=
  let r := run (parent_line kinetics_cls kinetics_opens kin_sub kinetics_close)
             (fresh (new_kinetics n text, []), None) ls in
  let o := settle kinetics_close r.1 in
  (if decide (length (o_val o).2 = 0) then (o_val o).1 else set_ki_steps (o_val o).2 (o_val o).1,
   o_err o + unknown r.2 + missing kinetics_cls o).

(** ** Equilibrium phases *)

Definition pp_comp_lines (x : pp_comp) : list (list tok) :=  (* PPassemblageComp.cxx 81-111 *)
  opt_word "add_formula" (pc_add x) ++
  [opt "si" [num (pc_si x)]; opt "moles" [num (pc_moles x)]; opt "force_equality" [yes (pc_force x)];
   opt "dissolve_only" [yes (pc_dissolve x)]; opt "precipitate_only" [yes (pc_precip x)];
   opt "si_org" [num (pc_si_org x)]; opt "delta" [num (pc_delta x)]; opt "initial_moles" [num (pc_init x)];
   opt "totals" []] ++ names_lines (pc_totals x).
(** cases 6 and 8: one flag switches the other off *)
Definition only_dissolve (b : bool) (x : pp_comp) : pp_comp :=
  let y := set_pc_dissolve b x in if b then set_pc_precip false y else y.
Definition only_precipitate (b : bool) (x : pp_comp) : pp_comp :=
  let y := set_pc_precip b x in if b then set_pc_dissolve false y else y.
(** PPassemblageComp.cxx 112-330, vopts 429-443 *)
Definition pp_comp_cls : cls pp_comp := Cls
  ["name"; "add_formula"; "si"; "moles"; "delta"; "initial_moles"; "dissolve_only"; "force_equality";
   "precipitate_only"; "si_org"; "totals"]%string
  [2; 3; 4; 5; 6; 7]
  (fun i a x => match i with
   | 1 => kept (a_word set_pc_add a x)
   | 2 => kept (a_dbl set_pc_si "0" a x)
   | 3 => kept (a_dbl set_pc_moles "0" a x)
   | 4 => kept (a_dbl set_pc_delta "0" a x)
   | 5 => kept (a_dbl set_pc_init "0" a x)
   | 6 => kept (a_bool only_dissolve a x)
   | 7 => kept (a_bool set_pc_force a x)
   | 8 => kept (a_bool only_precipitate a x)
   | 9 => kept (a_dbl set_pc_si_org "0" a x)
   | 10 => saved (a_names pc_totals set_pc_totals a x)
   | _ => ignored x
   end).
Definition new_pp_comp (s : string) : pp_comp :=  (* PPassemblageComp.cxx 28-43 *)
  PPComp s EmptyString (lit "0") (lit "0") (lit "10") (lit "0") (lit "0") false false false [].

(** PPassemblage.cxx 96-132 *)
Definition pp_lines (x : pp_assemblage) : list (list tok) :=
  [opt "new_def" [I 0]] ++
  flat_map (fun p => opt "component" (ws (pc_name p.2)) :: pp_comp_lines p.2) (pp_comps x) ++
  [opt "eltList" []] ++ names_lines (pp_elts x) ++ [opt "assemblage_totals" []] ++ names_lines (pp_totals x).
(** PPassemblage.cxx 134-247, vopts 370-377 *)
Definition pp_cls : cls pp_assemblage := Cls
  ["eltlist"; "component"; "new_def"; "assemblage_totals"]%string
  []
  (fun i a x => match i with
   | 0 => saved (a_names pp_elts set_pp_elts a x)
   | 1 => (x, 1, Keep)
   | 2 => kept (a_bool set_pp_new a x)
   | 3 => saved (a_names pp_totals set_pp_totals a x)
   | _ => ignored x
   end).
(** Find, 310-325: a key that is the name, ignoring case *)
Definition pp_found (s : string) (x : pp_assemblage) : option pp_comp :=
  list_find (fun p => same_name p.1 s = true) (pp_comps x) ≫= fun p => Some p.2.2.
Definition pp_opens (i : nat) (args : list tok) (o : ost pp_assemblage)
    : option (ost pp_assemblage * (string * ost pp_comp)) :=
  match i, args with
  | 1, W s :: _ =>
      Some (o, match pp_found s (o_val o) with
               | Some c => (s, fresh c)
               | None => (s, fresh (new_pp_comp s))
               end)
  | _, _ => None
  end.
Definition pp_close (b : string * ost pp_comp) (o : ost pp_assemblage) : ost pp_assemblage :=
  OS (set_pp_comps (nd_set b.1 (o_val b.2) (pp_comps (o_val o))) (o_val o)) (o_save o) (o_seen o)
     (o_err o + o_err b.2 + missing pp_comp_cls b.2).
Definition pp_sub (b : string * ost pp_comp) (l : list tok) : option (string * ost pp_comp) :=
  option_map (fun c => (b.1, c)) (own_line pp_comp_cls b.2 l).
Definition new_pp (n : Z) (text : string) : pp_assemblage :=  (* PPassemblage.cxx 28-36 *)
  PP n n (trim_left text) false [] [] [].
Definition read_pp (n : Z) (text : string) (ls : list (list tok)) : pp_assemblage * nat :=
  let r := run (parent_line pp_cls pp_opens pp_sub pp_close) (fresh (new_pp n text), None) ls in
  let o := settle pp_close r.1 in
  (o_val o, o_err o + unknown r.2 + missing pp_cls o).

(** ** Solid solutions *)

Definition ss_comp_lines (x : ss_comp) : list (list tok) := [  (* SScomp.cxx 51-77 *)
  opt "moles" [num (sc_moles x)]; opt "initial_moles" [num (sc_initial x)]; opt "init_moles" [num (sc_init x)];
  opt "delta" [num (sc_delta x)]; opt "fraction_x" [num (sc_x x)]; opt "log10_lambda" [num (sc_lambda x)];
  opt "log10_fraction_x" [num (sc_logx x)]; opt "dn" [num (sc_dn x)]; opt "dnc" [num (sc_dnc x)];
  opt "dnb" [num (sc_dnb x)]].
(** SScomp.cxx 79-237, vopts 286-299, called with check = false *)
Definition ss_comp_cls : cls ss_comp := Cls
  ["name"; "initial_moles"; "moles"; "init_moles"; "delta"; "fraction_x"; "log10_lambda"; "log10_fraction_x";
   "dn"; "dnc"; "dnb"]%string
  []
  (fun i a x => match i with
   | 0 => (x, 1, Keep)
   | 1 => kept (a_dbl set_sc_initial "0" a x)
   | 2 => kept (a_dbl set_sc_moles "0" a x)
   | 3 => kept (a_dbl set_sc_init "0" a x)
   | 4 => kept (a_dbl set_sc_delta "0" a x)
   | 5 => kept (a_dbl set_sc_x "0" a x)
   | 6 => kept (a_dbl set_sc_lambda "0" a x)
   | 7 => kept (a_dbl set_sc_logx "0" a x)
   | 8 => kept (a_dbl set_sc_dn "0" a x)
   | 9 => kept (a_dbl set_sc_dnc "0" a x)
   | 10 => kept (a_dbl set_sc_dnb "0" a x)
   | _ => ignored x
   end).
Definition new_ss_comp (s : string) : ss_comp :=  (* SScomp.cxx 28-46 *)
  let z := lit "0" in SSComp s z z z z z z z z z z.

(** SS.cxx 58-99; p\[0\] to p\[3\] exist *)
Definition solid_lines (x : solid) : list (list tok) :=
  flat_map (fun c => opt "component" (ws (sc_name c)) :: ss_comp_lines c) (ss_comps x) ++
  [opt "tk" [num (ss_tk x)]; opt "input_case" [I (ss_case x)]; opt "p" (num <$> take 4 (ss_p x));
   opt "ag0" [num (ss_ag0 x)]; opt "ag1" [num (ss_ag1 x)]; opt "a0" [num (ss_a0 x)]; opt "a1" [num (ss_a1 x)];
   opt "xb1" [num (ss_xb1 x)]; opt "xb2" [num (ss_xb2 x)]; opt "miscibility" [yes (ss_misc x)];
   opt "spinodal" [yes (ss_spin x)]; opt "ss_in" [yes (ss_in x)]; opt "total_moles" [num (ss_total x)];
   opt "dn" [num (ss_dn x)]; opt "totals" []] ++ names_lines (ss_totals x).
(** case 14: p.assign(4, 0.0), then four numbers; each that fails is reported, and once one fails all do *)
Definition a_four (args : list tok) (x : solid) : solid * nat :=
  let l := take 4 (numbers args) in (set_ss_p (l ++ replicate (4 - length l) (lit "0.0")) x, 4 - length l).
(** SS.cxx 101-415, vopts 590-610, called with check = false *)
Definition solid_cls : cls solid := Cls
  ["ss_name"; "total_moles"; "a0"; "a1"; "components"; "miscibility"; "spinodal"; "tk"; "xb1"; "xb2"; "ag0";
   "ag1"; "component"; "input_case"; "p"; "ss_in"; "totals"; "dn"]%string
  []
  (fun i a x => match i with
   | 0 => (x, 0, Drop)
   | 1 => dropped (a_dbl set_ss_total "0" a x)
   | 2 => dropped (a_dbl set_ss_a0 "0" a x)
   | 3 => dropped (a_dbl set_ss_a1 "0" a x)
   | 4 | 12 => (x, 1, Drop)
   | 5 => dropped (a_bool set_ss_misc a x)
   | 6 => dropped (a_bool set_ss_spin a x)
   | 7 => dropped (a_dbl set_ss_tk "0" a x)
   | 8 => dropped (a_dbl set_ss_xb1 "0" a x)
   | 9 => dropped (a_dbl set_ss_xb2 "0" a x)
   | 10 => dropped (a_dbl set_ss_ag0 "0" a x)
   | 11 => dropped (a_dbl set_ss_ag1 "0" a x)
   | 13 => dropped (a_int set_ss_case a x)
   | 14 => kept (a_four a x)
   | 15 => kept (a_bool set_ss_in a x)
   | 16 => saved (a_names ss_totals set_ss_totals a x)
   | 17 => dropped (a_dbl set_ss_dn "0" a x)
   | _ => ignored x
   end).
(** Find, 501-511: the same name; the loop that replaces it ignores case *)
Definition ss_found (s : string) (l : list (ss_comp)) : option ss_comp :=
  list_find (fun c => String.eqb (sc_name c) s = true) l ≫= fun p => Some p.2.
Definition solid_opens (i : nat) (args : list tok) (o : ost solid)
    : option (ost solid * (string * bool * ost ss_comp)) :=
  match i, args with
  | 4, W s :: _ | 12, W s :: _ =>
      Some (OS (o_val o) None (o_seen o) (o_err o),
            match ss_found s (ss_comps (o_val o)) with
            | Some c => (s, true, fresh c)
            | None => (s, false, fresh (new_ss_comp s))
            end)
  | _, _ => None
  end.
Definition solid_close (b : string * bool * ost ss_comp) (o : ost solid) : ost solid :=
  let '(s, found, c) := b in
  OS (set_ss_comps (put sc_name s found (o_val c) (ss_comps (o_val o))) (o_val o)) (o_save o) (o_seen o)
     (o_err o + o_err c).
Definition ss_comp_sub (b : string * bool * ost ss_comp) (l : list tok) : option (string * bool * ost ss_comp) :=
  option_map (fun c => (b.1, c)) (own_line ss_comp_cls b.2 l).
Definition solid_state : Type := pst solid (string * bool * ost ss_comp).
Definition solid_line : solid_state -> list tok -> option solid_state :=
  parent_line solid_cls solid_opens ss_comp_sub solid_close.
Definition new_solid (s : string) : solid :=  (* SS.cxx 28-53 *)
  let z := lit "0" in
  Solid s z z [] z z false false (lit "298.15") z z (-1)%Z [z; z; z; z] z z false [].

(** SSassemblage.cxx 67-102 *)
Definition ssa_lines (x : ss_assemblage) : list (list tok) :=
  flat_map (fun p => opt "solid_solution" (ws p.1) :: solid_lines p.2) (sa_list x) ++
  [opt "new_def" [yes (sa_new x)]; opt "SSassemblage_totals" []] ++ names_lines (sa_totals x).
(** SSassemblage.cxx 104-206, vopts 311-316 *)
Definition ssa_cls : cls ss_assemblage := Cls
  ["solid_solution"; "ssassemblage_totals"; "new_def"]%string
  []
  (fun i a x => match i with
   | 0 => (x, 1, Keep)
   | 1 => saved (a_names sa_totals set_sa_totals a x)
   | 2 => kept (a_flag set_sa_new a x)
   | _ => ignored x
   end).
(** -solid_solution; SS::read_raw fills p up to four entries (102-129). Without a name there is an error;
    the code goes on and reads a solid solution without a name, which is left out. *)
Definition ssa_opens (i : nat) (args : list tok) (o : ost ss_assemblage)
    : option (ost ss_assemblage * (string * solid_state)) :=
  match i, args with
  | 0, W s :: _ =>
      let y := match nd_find s (sa_list (o_val o)) with Some y => y | None => new_solid s end in
      Some (o, (s, (fresh (set_ss_p (ss_p y ++ replicate (4 - length (ss_p y)) (lit "0.0")) y), None)))
  | _, _ => None
  end.
Definition ssa_close (b : string * solid_state) (o : ost ss_assemblage) : ost ss_assemblage :=
  let y := settle solid_close b.2 in
  OS (set_sa_list (nd_set b.1 (o_val y) (sa_list (o_val o))) (o_val o)) (o_save o) (o_seen o) (o_err o + o_err y).
Definition ssa_sub (b : string * solid_state) (l : list tok) : option (string * solid_state) :=
  option_map (fun c => (b.1, c)) (solid_line b.2 l).
Definition new_ssa (n : Z) (text : string) : ss_assemblage :=  (* SSassemblage.cxx 31-38 *)
  SSA n n (trim_left text) [] false [].
Definition read_ssa (n : Z) (text : string) (ls : list (list tok)) : ss_assemblage * nat :=
  let r := run (parent_line ssa_cls ssa_opens ssa_sub ssa_close) (fresh (new_ssa n text), None) ls in
  let o := settle ssa_close r.1 in
  (o_val o, o_err o + unknown r.2 + missing ssa_cls o).

(** ** Surfaces *)

Definition surf_comp_lines (x : surf_comp) : list (list tok) :=  (* SurfaceComp.cxx 85-119 *)
  [opt "formula_z" [num (uc_z x)]; opt "moles" [num (uc_moles x)]; opt "la" [num (uc_la x)];
   opt "charge_balance" [num (uc_cb x)]] ++
  opt_word "phase_name" (uc_phase x) ++ opt_word "rate_name" (uc_rate x) ++
  [opt "phase_proportion" [num (uc_prop x)]; opt "Dw" [num (uc_dw x)]; opt "charge_name" (ws (uc_charge x));
   opt "master_element" (ws (uc_master x)); opt "totals" []] ++ names_lines (uc_totals x).
(** SurfaceComp.cxx 121-372, vopts 493-510 *)
Definition surf_comp_cls : cls surf_comp := Cls
  ["formula"; "moles"; "la"; "charge_number"; "charge_balance"; "phase_name"; "rate_name"; "phase_proportion";
   "totals"; "formula_z"; "formula_totals"; "dw"; "charge_name"; "master_element"]%string
  [12; 9; 1; 2; 4; 11; 13; 8]
  (fun i a x => match i with
   | 1 => kept (a_dbl set_uc_moles "0" a x)
   | 2 => kept (a_dbl set_uc_la "0" a x)
   | 4 => kept (a_dbl set_uc_cb "0" a x)
   | 5 => kept (a_word set_uc_phase a x)
   | 6 => kept (a_word set_uc_rate a x)
   | 7 => kept (a_dbl set_uc_prop "0" a x)
   | 8 => saved (a_names uc_totals set_uc_totals a x)
   | 9 => kept (a_dbl set_uc_z "0" a x)
   | 11 => kept (a_dbl set_uc_dw "0" a x)
   | 12 => kept (a_word set_uc_charge a x)
   | 13 => kept (a_word set_uc_master a x)
   | _ => ignored x
   end).
Definition new_surf_comp (s : string) : surf_comp :=  (* SurfaceComp.cxx 28-42 *)
  let z := lit "0" in SurfComp s z z [] z EmptyString z EmptyString z EmptyString z EmptyString.

Definition surf_charge_lines (x : surf_charge) : list (list tok) :=  (* SurfaceCharge.cxx 85-141 *)
  [opt "specific_area" [num (uh_area x)]; opt "grams" [num (uh_grams x)]; opt "charge_balance" [num (uh_cb x)];
   opt "mass_water" [num (uh_water x)]; opt "f_free" [num (uh_free x)]; opt "ddl_viscosity" [num (uh_visc x)];
   opt "la_psi" [num (uh_la x)]; opt "capacitance0" [num (uh_cap0 x)]; opt "capacitance1" [num (uh_cap1 x)];
   opt "diffuse_layer_totals" []] ++ names_lines (uh_dl x) ++
  (if decide (length (uh_species x) = 0) then []
   else opt "diffuse_layer_species" [] :: imap_lines (uh_species x)) ++
  [opt "sigma0" [num (uh_s0 x)]; opt "sigma1" [num (uh_s1 x)]; opt "sigma2" [num (uh_s2 x)];
   opt "sigmaddl" [num (uh_sd x)]] ++
  ((fun p => opt "g_map" [num p.1; num (dl_g p.2); num (dl_dg p.2); num (dl_psi p.2)]) <$> uh_g x).
(** case 15, SurfaceCharge.cxx 316-341; the map is cleared at the first -g_map, and is empty before when a
    new charge is read. A value that fails ends the case. cxxSurfDL() has zeros. *)
Definition a_gmap (args : list tok) (x : surf_charge) : surf_charge * nat :=
  let z := lit "0" in
  match args with
  | N k :: more =>
      let v := match more with
               | N g :: N dg :: N psi :: _ => SurfDL g dg psi
               | N g :: N dg :: _ => SurfDL g dg z
               | N g :: _ => SurfDL g z z
               | _ => SurfDL z z z
               end in
      (set_uh_g (kset dcmp k v (uh_g x)) x, 0)
  | _ => (x, 0)
  end.
(** SurfaceCharge.cxx 143-434, vopts 598-620 *)
Definition surf_charge_cls : cls surf_charge := Cls
  ["name"; "specific_area"; "grams"; "charge_balance"; "mass_water"; "la_psi"; "diffuse_layer_totals"; "la_psi1";
   "la_psi2"; "capacitance0"; "capacitance1"; "sigma0"; "sigma1"; "sigma2"; "sigmaddl"; "g_map";
   "diffuse_layer_species"; "f_free"; "ddl_viscosity"]%string
  [1; 2; 3; 4; 5; 9; 10]
  (fun i a x => match i with
   | 1 => kept (a_dbl set_uh_area "0" a x)
   | 2 => kept (a_dbl set_uh_grams "0" a x)
   | 3 => kept (a_dbl set_uh_cb "0" a x)
   | 4 => kept (a_dbl set_uh_water "0" a x)
   | 5 => kept (a_dbl set_uh_la "0" a x)
   | 6 => saved (a_names uh_dl set_uh_dl a x)
   | 9 => kept (a_dbl set_uh_cap0 "0" a x)
   | 10 => kept (a_dbl set_uh_cap1 "0" a x)
   | 11 => kept (a_dbl set_uh_s0 "0" a x)
   | 12 => kept (a_dbl set_uh_s1 "0" a x)
   | 13 => kept (a_dbl set_uh_s2 "0" a x)
   | 14 => kept (a_dbl set_uh_sd "0" a x)
   | 15 => kept (a_gmap a x)
   | 16 => saved (a_imap uh_species set_uh_species a x)
   | 17 => kept (a_dbl set_uh_free "0" a x)
   | 18 => kept (a_dbl set_uh_visc "1.0" a x)
   | _ => ignored x
   end).
Definition new_surf_charge (s : string) : surf_charge :=  (* SurfaceCharge.cxx 28-46 *)
  let z := lit "0" in SurfCharge s z z z z z z z (lit "1.0") (lit "5.0") [] z z z z [] [] [].

(** Surface.cxx 110-181 *)
Definition surface_lines (x : surface) : list (list tok) :=
  [opt "type" [I (su_type x)]; opt "dl_type" [I (su_dl x)]; opt "only_counter_ions" [yes (su_only x)];
   opt "correct_D" [yes (su_correct x)]; opt "thickness" [num (su_thick x)]; opt "debye_lengths" [num (su_debye x)];
   opt "DDL_viscosity" [num (su_visc x)]; opt "DDL_limit" [num (su_limit x)]] ++
  flat_map (fun c => opt "component" (ws (uc_formula c)) :: surf_comp_lines c) (su_comps x) ++
  flat_map (fun c => opt "charge_component" (ws (uh_name c)) :: surf_charge_lines c) (su_charges x) ++
  [opt "new_def" [yes (su_new x)]; opt "tidied" [yes (su_tidied x)]; opt "sites_units" [I (su_units x)];
   opt "solution_equilibria" [yes (su_equil x)]; opt "n_solution" [I (su_soln x)];
   opt "transport" [yes (su_trans x)]; opt "totals" []] ++ names_lines (su_totals x).
(** Surface.cxx 183-501, vopts 818-841; entry 7 has a blank at its end; 0, 1 and 3 are errors *)
Definition surface_cls : cls surface := Cls
  ["diffuse_layer"; "edl"; "only_counter_ions"; "donnan"; "thickness"; "component"; "charge_component"; "type ";
   "dl_type"; "sites_units"; "debye_lengths"; "ddl_viscosity"; "ddl_limit"; "transport"; "new_def";
   "solution_equilibria"; "n_solution"; "totals"; "tidied"; "correct_d"]%string
  [2; 4; 7; 8; 9; 10; 11; 12; 13]
  (fun i a x => match i with
   | 2 => kept (a_bool set_su_only a x)
   | 4 => kept (a_dbl set_su_thick "0.0" a x)
   | 7 => kept (a_int set_su_type a x)
   | 8 => kept (a_int set_su_dl a x)
   | 9 => kept (a_int set_su_units a x)
   | 10 => kept (a_dbl set_su_debye "0.0" a x)
   | 11 => kept (a_dbl set_su_visc "1.0" a x)
   | 12 => kept (a_dbl set_su_limit "0.0" a x)
   | 13 => kept (a_bool set_su_trans a x)
   | 14 => kept (a_bool set_su_new a x)
   | 15 => kept (a_bool set_su_equil a x)
   | 16 => kept (a_int set_su_soln a x)
   | 17 => kept (a_names su_totals set_su_totals a x)
   | 18 => kept (a_bool set_su_tidied a x)
   | 19 => kept (a_bool set_su_correct a x)
   | _ => (x, 1, Keep)
   end).
Definition surf_part : Type := (string * bool * ost surf_comp) + (string * bool * ost surf_charge).
Definition surface_opens (i : nat) (args : list tok) (o : ost surface) : option (ost surface * surf_part) :=
  match i, args with
  | 5, W s :: _ =>
      Some (o, inl match named_found uc_formula s (su_comps (o_val o)) with
                   | Some c => (s, true, fresh c)
                   | None => (s, false, fresh (new_surf_comp s))
                   end)
  | 6, W s :: _ =>
      Some (o, inr match named_found uh_name s (su_charges (o_val o)) with
                   | Some c => (s, true, fresh c)
                   | None => (s, false, fresh (new_surf_charge s))
                   end)
  | _, _ => None
  end.
Definition surface_close (b : surf_part) (o : ost surface) : ost surface :=
  match b with
  | inl (s, found, c) =>
      OS (set_su_comps (put uc_formula s found (o_val c) (su_comps (o_val o))) (o_val o)) (o_save o) (o_seen o)
         (o_err o + o_err c + missing surf_comp_cls c)
  | inr (s, found, c) =>
      OS (set_su_charges (put uh_name s found (o_val c) (su_charges (o_val o))) (o_val o)) (o_save o) (o_seen o)
         (o_err o + o_err c + missing surf_charge_cls c)
  end.
Definition surface_sub (b : surf_part) (l : list tok) : option surf_part :=
  match b with
  | inl c => option_map (fun d => inl (c.1, d)) (own_line surf_comp_cls c.2 l)
  | inr c => option_map (fun d => inr (c.1, d)) (own_line surf_charge_cls c.2 l)
  end.
(** Surface.cxx 27-48, 193-195; DDL is 1, NO_DL 0, SITES_ABSOLUTE 0 *)
Definition new_surface (n : Z) (text : string) : surface :=
  Surface n n (trim_left text) [] [] false true 1%Z 0%Z 0%Z false (lit "1e-8") (lit "0.0") (lit "1.0") false
    (lit "0.8") false false [] false (-999)%Z.
Definition read_surface (n : Z) (text : string) (ls : list (list tok)) : surface * nat :=
  let r := run (parent_line surface_cls surface_opens surface_sub surface_close)
             (fresh (new_surface n text), None) ls in
  let o := settle surface_close r.1 in
  let x := o_val o in
  (set_su_charges (sort_by uh_name (su_charges x)) (set_su_comps (sort_by uc_formula (su_comps x)) x),
   o_err o + unknown r.2 + missing surface_cls o).

(** ** Solutions *)

(** SolutionIsotope.cxx 80-103 *)
Definition isotope_lines (x : isotope) : list (list tok) :=
  [opt "isotope_number" [num (is_num x)]; opt "elt_name" (ws (is_elt x)); opt "total" [num (is_total x)];
   opt "ratio" [num (is_ratio x)]; opt "ratio_uncertainty_defined" [yes (is_def x)]] ++
  (if is_def x then [opt "ratio_uncertainty" [num (is_unc x)]] else []) ++
  [opt "x_ratio_uncertainty" [num (is_x x)]; opt "coef" [num (is_coef x)]].
(** Solution.cxx 233-372; the name of the isotope is not written *)
Definition solution_lines (x : solution) : list (list tok) :=
  [opt "temp" [num (so_tc x)]; opt "pressure" [num (so_patm x)]; opt "potential" [num (so_pot x)];
   opt "total_h" [num (so_h x)]; opt "total_o" [num (so_o x)]; opt "cb" [num (so_cb x)];
   opt "density" [num (so_dens x)]; opt "viscosity" [num (so_visc x)]; opt "viscos_0" [num (so_visc0 x)];
   opt "totals" []] ++ names_lines (so_totals x) ++
  flat_map (fun p => opt "Isotope" [] :: isotope_lines p.2) (so_iso x) ++
  [opt "pH" [num (so_ph x)]; opt "pe" [num (so_pe x)]; opt "mu" [num (so_mu x)]; opt "ah2o" [num (so_ah2o x)];
   opt "mass_water" [num (so_water x)]; opt "soln_vol" [num (so_vol x)]; opt "total_alkalinity" [num (so_alk x)];
   opt "activities" []] ++ names_lines (so_act x) ++ [opt "gammas" []] ++ names_lines (so_gamma x) ++
  (if decide (length (so_species x) = 0) then [] else opt "species_map" [] :: imap_lines (so_species x)) ++
  (if decide (length (so_loggam x) = 0) then [] else opt "log_gamma_map" [] :: imap_lines (so_loggam x)) ++
  (if decide (length (so_logmol x) = 0) then [] else opt "log_molalities_map" [] :: imap_lines (so_logmol x)).
(** case 0, Solution.cxx 775-793: the line is read into an empty list, which is merged *)
Definition a_totals (args : list tok) (x : solution) : solution * nat :=
  match args with
  | [] => (x, 0)
  | W n :: N v :: _ => (set_so_totals (merge_redox (so_totals x) [(n, v)]) x, 0)
  | _ => (x, 1)
  end.
(** Solution.cxx 718-1173, vopts 1757-1789; -isotopes with a name (SolutionIsotope::read_raw), which no
    dump has, is not modelled *)
Definition solution_cls : cls solution := Cls
  ["totals"; "activities"; "gammas"; "isotopes"; "temp"; "tc_avoid_conflict_with_technetium"; "temperature"; "ph";
   "pe"; "mu"; "ionic_strength"; "ah2o"; "activity_water"; "total_h"; "total_o"; "mass_water"; "mass_h2o";
   "total_alkalinity"; "total_alk"; "cb"; "charge_balance"; "density"; "pressure"; "soln_vol"; "species_map";
   "log_gamma_map"; "potential"; "log_molalities_map"; "viscosity"; "viscos_0"]%string
  [4; 7; 8; 9; 11; 13; 14; 19; 15; 17]
  (fun i a x => match i with
   | 0 => saved (a_totals a x)
   | 1 => saved (a_names so_act set_so_act a x)
   | 2 => saved (a_names so_gamma set_so_gamma a x)
   | 3 => (x, 1, Drop)
   | 4 | 5 | 6 => dropped (a_dbl set_so_tc "25.0" a x)
   | 7 => dropped (a_dbl set_so_ph "7.0" a x)
   | 8 => dropped (a_dbl set_so_pe "4.0" a x)
   | 9 | 10 => dropped (a_dbl set_so_mu "1e-7" a x)
   | 11 | 12 => dropped (a_dbl set_so_ah2o "1.0" a x)
   | 13 => dropped (a_dbl set_so_h "111.1" a x)
   | 14 => dropped (a_dbl set_so_o "55.55" a x)
   | 15 | 16 => dropped (a_dbl set_so_water "1.0" a x)
   | 17 | 18 => dropped (a_dbl set_so_alk "0" a x)
   | 19 | 20 => dropped (a_dbl set_so_cb "0" a x)
   | 21 => dropped (a_dbl set_so_dens "1.0" a x)
   | 22 => dropped (a_dbl set_so_patm "1.0" a x)
   | 23 => dropped (a_dbl set_so_vol "1.0" a x)
   | 24 => saved (a_imap so_species set_so_species a x)
   | 25 => saved (a_imap so_loggam set_so_loggam a x)
   | 26 => dropped (a_dbl set_so_pot "0.0" a x)
   | 27 => saved (a_imap so_logmol set_so_logmol a x)
   | 28 => dropped (a_dbl set_so_visc "1.0" a x)
   | 29 => dropped (a_dbl set_so_visc0 "1.0" a x)
   | _ => ignored x
   end).
(** 766-773: unknown input is reported, and the loop continues *)
Definition solution_line (s : ost solution) (l : list tok) : option (ost solution) :=
  match own_line solution_cls s l with
  | Some s' => Some s'
  | None => match get_option (c_opts solution_cls) l with
            | (Key, _) => None
            | _ => Some (OS (o_val s) (o_save s) (o_seen s) (S (o_err s)))
            end
  end.
Definition new_solution (n : Z) (text : string) : solution :=  (* Solution.cxx 31-58 *)
  Solution n n (trim_left text) false (lit "1.0") (lit "0.0") (lit "25.0") (lit "7.0") (lit "4.0") (lit "1e-7")
    (lit "1.0") (lit "111.1") (lit "55.55") (lit "0.0") (lit "1.0") (lit "1.0") (lit "1.0") (lit "1.0")
    (lit "1.0") (lit "0.0") [] [] [] [] false [] [] [].
(** The update of the activities at the end (1175-1197) is for a solution that had activities before. *)
Definition read_solution (n : Z) (text : string) (ls : list (list tok)) : solution * nat :=
  let r := run solution_line (fresh (new_solution n text)) ls in
  (o_val r.1, o_err r.1 + missing solution_cls r.1).

(** ** Mixes, reactions, temperatures and pressures *)

(** an int that is 0 if there is none *)
Definition a_count {A} (set : Z -> A -> A) (args : list tok) (x : A) : A * nat :=
  match args with I z :: _ => (set z x, 0) | _ => (set 0%Z x, 1) end.

Definition mixture_lines (x : mixture) : list (list tok) := imap_lines (mi_comps x).  (* cxxMix.cxx 40-62 *)
(** cxxMix.cxx 64-137; there are no options (vopts is empty, 154), opt_save is OPT_DEFAULT throughout, which
    is the number and the fraction of a solution: option 0 here. There is no check. *)
Definition mixture_cls : cls mixture := Cls [] [] (fun _ a x => saved (a_imap mi_comps set_mi_comps a x)).
Definition read_mixture (n : Z) (text : string) (ls : list (list tok)) : mixture * nat :=
  let r := run (own_line mixture_cls) (OS (Mixture n n (trim_left text) []) (Some 0) [0] 0) ls in
  (o_val r.1, o_err r.1 + unknown r.2).

(** Reaction.cxx 43-97 *)
Definition reaction_lines (x : reaction) : list (list tok) :=
  opt "reactant_list" [] :: names_lines (rx_list x) ++
  opt "steps" [] :: wrap 0 [] (rx_steps x) ++
  [opt "count_steps" [I (rx_count x)]; opt "equal_increments" [yes (rx_equal x)]; opt "units" (ws (rx_units x));
   opt "element_list" []] ++ names_lines (rx_elts x).
(** Reaction.cxx 99-262, vopts 276-283. A line -units without a word leaves units_defined and so is an error:
    one report after the loop, here with the line. *)
Definition reaction_cls : cls reaction := Cls
  ["units"; "reactant_list"; "element_list"; "steps"; "equal_increments"; "count_steps"]%string
  [0; 4; 5]
  (fun i a x => match i with
   | 0 => match a with W s :: _ => dropped (set_rx_units s x, 0) | _ => (x, 1, Keep) end
   | 1 => saved (a_names rx_list set_rx_list a x)
   | 2 => saved (a_names rx_elts set_rx_elts a x)
   | 3 => saved (set_rx_steps (rx_steps x ++ numbers a) x, 0)
   | 4 => dropped (a_bool set_rx_equal a x)
   | 5 => dropped (a_count set_rx_count a x)
   | _ => ignored x
   end).
Definition new_reaction (n : Z) (text : string) : reaction :=  (* Reaction.cxx 26-37 *)
  Reaction n n (trim_left text) "Mol" [] [] [] 0%Z false.
Definition read_reaction (n : Z) (text : string) (ls : list (list tok)) : reaction * nat :=
  let r := run (own_line reaction_cls) (fresh (new_reaction n text)) ls in
  (o_val r.1, o_err r.1 + unknown r.2 + missing reaction_cls r.1).

(** Temperature.cxx 157-201; Get_countTemps, 376-383 *)
Definition count_temps (x : steps) : Z := if st_equal x then st_count x else Z.of_nat (length (st_list x)).
Definition temperature_lines (x : steps) : list (list tok) :=
  [opt "count_temps" [I (count_temps x)]; opt "equal_increments" [yes (st_equal x)]; opt "temps" []] ++
  wrap 0 [] (st_list x).
(** Pressure.cxx 157-200 *)
Definition pressure_lines (x : steps) : list (list tok) :=
  [opt "count" [I (st_count x)]; opt "equal_increments" [yes (st_equal x)]; opt "pressures" []] ++
  wrap 0 [] (st_list x).
Definition steps_act (i : nat) (a : list tok) (x : steps) : steps * nat * keep :=
  match i with
  | 0 => saved (set_st_list (st_list x ++ numbers a) x, 0)
  | 1 => dropped (a_bool set_st_equal a x)
  | 2 => dropped (a_count set_st_count a x)
  | _ => ignored x
  end.
(** Temperature.cxx 203-316, vopts 418-422; Pressure.cxx 202-316, vopts 412-416 *)
Definition temperature_cls : cls steps := Cls ["temps"; "equal_increments"; "count_temps"]%string [1; 2] steps_act.
Definition pressure_cls : cls steps := Cls ["pressures"; "equal_increments"; "count"]%string [1; 2] steps_act.
Definition read_steps (c : cls steps) (n : Z) (text : string) (ls : list (list tok)) : steps * nat :=
  let r := run (own_line c) (fresh (Steps n n (trim_left text) [] 0%Z false)) ls in
  (o_val r.1, o_err r.1 + unknown r.2 + missing c r.1).

(** ** A file *)

(** A line with a keyword of a reactant, its number and description, or another line. *)
Inductive phys := Head (k : string) (n : Z) (text : string) | Body (l : list tok).

Inductive entity :=
  | ESolution (x : solution) | EExchange (x : exchange) | EGas (x : gas_phase)
  | EKinetics (x : kinetics) | EPP (x : pp_assemblage) | ESS (x : ss_assemblage)
  | ESurface (x : surface) | EMix (x : mixture) | EReaction (x : reaction)
  | ETemp (x : steps) | EPress (x : steps).

Definition dump_entity (e : entity) : list phys :=
  match e with
  | ESolution x => Head "SOLUTION_RAW" (so_n x) (so_text x) :: (Body <$> solution_lines x)
  | EExchange x => Head "EXCHANGE_RAW" (ex_n x) (ex_text x) :: (Body <$> exchange_lines x)
  | EGas x => Head "GAS_PHASE_RAW" (gp_n x) (gp_text x) :: (Body <$> gas_phase_lines x)
  | EKinetics x => Head "KINETICS_RAW" (ki_n x) (ki_text x) :: (Body <$> kinetics_lines x)
  | EPP x => Head "EQUILIBRIUM_PHASES_RAW" (pp_n x) (pp_text x) :: (Body <$> pp_lines x)
  | ESS x => Head "SOLID_SOLUTIONS_RAW" (sa_n x) (sa_text x) :: (Body <$> ssa_lines x)
  | ESurface x => Head "SURFACE_RAW" (su_n x) (su_text x) :: (Body <$> surface_lines x)
  | EMix x => Head "MIX_RAW" (mi_n x) (mi_text x) :: (Body <$> mixture_lines x)
  | EReaction x => Head "REACTION_RAW" (rx_n x) (rx_text x) :: (Body <$> reaction_lines x)
  | ETemp x => Head "REACTION_TEMPERATURE_RAW" (st_n x) (st_text x) :: (Body <$> temperature_lines x)
  | EPress x => Head "REACTION_PRESSURE_RAW" (st_n x) (st_text x) :: (Body <$> pressure_lines x)
  end.
Definition dump (l : list entity) : list phys := flat_map dump_entity l.

(** the lines up to the next keyword line of a reactant *)
Fixpoint bodies (ls : list phys) : list (list tok) :=
  match ls with Body l :: ls' => l :: bodies ls' | _ => [] end.

(** The maps Rxn_..._map, and the number of error reports. *)
Definition store : Type := reactants * nat.
Definition put_sol (n : Z) (x : solution) (r : reactants) : reactants :=
  Reactants (<[n := x]> (ph_sol r)) (ph_ex r) (ph_gas r) (ph_kin r) (ph_pp r) (ph_ss r) (ph_surf r) (ph_temp r)
    (ph_press r) (ph_mix r) (ph_react r).
Definition put_ex (n : Z) (x : exchange) (r : reactants) : reactants :=
  Reactants (ph_sol r) (<[n := x]> (ph_ex r)) (ph_gas r) (ph_kin r) (ph_pp r) (ph_ss r) (ph_surf r) (ph_temp r)
    (ph_press r) (ph_mix r) (ph_react r).
Definition put_gas (n : Z) (x : gas_phase) (r : reactants) : reactants :=
  Reactants (ph_sol r) (ph_ex r) (<[n := x]> (ph_gas r)) (ph_kin r) (ph_pp r) (ph_ss r) (ph_surf r) (ph_temp r)
    (ph_press r) (ph_mix r) (ph_react r).
Definition put_kin (n : Z) (x : kinetics) (r : reactants) : reactants :=
  Reactants (ph_sol r) (ph_ex r) (ph_gas r) (<[n := x]> (ph_kin r)) (ph_pp r) (ph_ss r) (ph_surf r) (ph_temp r)
    (ph_press r) (ph_mix r) (ph_react r).
Definition put_pp (n : Z) (x : pp_assemblage) (r : reactants) : reactants :=
  Reactants (ph_sol r) (ph_ex r) (ph_gas r) (ph_kin r) (<[n := x]> (ph_pp r)) (ph_ss r) (ph_surf r) (ph_temp r)
    (ph_press r) (ph_mix r) (ph_react r).
Definition put_ss (n : Z) (x : ss_assemblage) (r : reactants) : reactants :=
  Reactants (ph_sol r) (ph_ex r) (ph_gas r) (ph_kin r) (ph_pp r) (<[n := x]> (ph_ss r)) (ph_surf r) (ph_temp r)
    (ph_press r) (ph_mix r) (ph_react r).
Definition put_surf (n : Z) (x : surface) (r : reactants) : reactants :=
  Reactants (ph_sol r) (ph_ex r) (ph_gas r) (ph_kin r) (ph_pp r) (ph_ss r) (<[n := x]> (ph_surf r)) (ph_temp r)
    (ph_press r) (ph_mix r) (ph_react r).
Definition put_mix (n : Z) (x : mixture) (r : reactants) : reactants :=
  Reactants (ph_sol r) (ph_ex r) (ph_gas r) (ph_kin r) (ph_pp r) (ph_ss r) (ph_surf r) (ph_temp r)
    (ph_press r) (<[n := x]> (ph_mix r)) (ph_react r).
Definition put_react (n : Z) (x : reaction) (r : reactants) : reactants :=
  Reactants (ph_sol r) (ph_ex r) (ph_gas r) (ph_kin r) (ph_pp r) (ph_ss r) (ph_surf r) (ph_temp r)
    (ph_press r) (ph_mix r) (<[n := x]> (ph_react r)).
Definition put_temp (n : Z) (x : steps) (r : reactants) : reactants :=
  Reactants (ph_sol r) (ph_ex r) (ph_gas r) (ph_kin r) (ph_pp r) (ph_ss r) (ph_surf r) (<[n := x]> (ph_temp r))
    (ph_press r) (ph_mix r) (ph_react r).
Definition put_press (n : Z) (x : steps) (r : reactants) : reactants :=
  Reactants (ph_sol r) (ph_ex r) (ph_gas r) (ph_kin r) (ph_pp r) (ph_ss r) (ph_surf r) (ph_temp r)
    (<[n := x]> (ph_press r)) (ph_mix r) (ph_react r).

(** Phreeqc::read_input (read.cpp 319-348, 391-393) and Rxn_read_raw (Phreeqc.h 1989-2012): a new object is read
    and stored under its number. The count that is tested before storing is that of the object, while the
    reports are counted by the parser, so it is stored in any case. *)
Definition read_one (k : string) (n : Z) (text : string) (ls : list (list tok)) (st : store) : store :=
  let '(r, e) := st in
  if decide (k = "SOLUTION_RAW"%string) then let q := read_solution n text ls in (put_sol n q.1 r, e + q.2)
  else if decide (k = "EXCHANGE_RAW"%string) then let q := read_exchange n text ls in (put_ex n q.1 r, e + q.2)
  else if decide (k = "GAS_PHASE_RAW"%string) then let q := read_gas_phase n text ls in (put_gas n q.1 r, e + q.2)
  else if decide (k = "KINETICS_RAW"%string) then let q := read_kinetics n text ls in (put_kin n q.1 r, e + q.2)
  else if decide (k = "EQUILIBRIUM_PHASES_RAW"%string) then let q := read_pp n text ls in (put_pp n q.1 r, e + q.2)
  else if decide (k = "SOLID_SOLUTIONS_RAW"%string) then let q := read_ssa n text ls in (put_ss n q.1 r, e + q.2)
  else if decide (k = "SURFACE_RAW"%string) then let q := read_surface n text ls in (put_surf n q.1 r, e + q.2)
  else if decide (k = "MIX_RAW"%string) then let q := read_mixture n text ls in (put_mix n q.1 r, e + q.2)
  else if decide (k = "REACTION_RAW"%string) then let q := read_reaction n text ls in (put_react n q.1 r, e + q.2)
  else if decide (k = "REACTION_TEMPERATURE_RAW"%string)
    then let q := read_steps temperature_cls n text ls in (put_temp n q.1 r, e + q.2)
  else if decide (k = "REACTION_PRESSURE_RAW"%string)
    then let q := read_steps pressure_cls n text ls in (put_press n q.1 r, e + q.2)
  else (r, S e).
(** Lines that a reader left over are passed by; they follow an error, or start with another keyword,
    which no dump of reactants has. *)
Fixpoint read_file (ls : list phys) (st : store) : store :=
  match ls with
  | [] => st
  | Head k n text :: ls' => read_file ls' (read_one k n text (bodies ls') st)
  | Body _ :: ls' => read_file ls' st
  end.
End Raw.
Arguments OS {A}. Arguments o_val {A}. Arguments o_save {A}. Arguments o_seen {A}. Arguments o_err {A}.
Arguments Cls {D A}. Arguments c_opts {D A}. Arguments c_need {D A}. Arguments c_act {D A}.
