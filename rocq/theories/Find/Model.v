(** Finding the components: the engine's lists of what has been defined, and
    PhreeqcRM::FindComponents.

    Sources: src/IPhreeqcPhast/IPhreeqc/phreeqcpp/Phreeqc.cpp 79-433, structures.cpp 868-961,
    GasPhase.cxx 462-482, SS.cxx 424-444, src/IPhreeqcPhast/IPhreeqc/IPhreeqc.cpp 561-576,
    src/PhreeqcRM.cpp 2824-3263 and 11046-11070. *)
From Coq Require Import String QArith Qcanon.
From stdpp Require Import prelude strings.
From Verif.Base Require Import Result.
From Verif.Names Require Import Model.
Open Scope string_scope.
Open Scope list_scope.

(** ** std::set<std::string>: its elements in iteration order *)

(** set::insert *)
Fixpoint ins (x : string) (l : list string) : list string :=
  match l with
  | [] => [x]
  | y :: l' => match scmp x y with Eq => l | Lt => x :: l | Gt => y :: ins x l' end
  end.
(** Inserting the elements of a vector or list one after another. *)
Definition inss (xs l : list string) : list string := fold_left (fun acc x => ins x acc) xs l.

(** ** The engine's component list *)

(** What a master species says: whether it is aqueous ([type == AQ]) and whether it is the primary
    master of its element ([primary]). The table is searched by name, master_bsearch
    (structures.cpp 868-903); binary search in a sorted table is lookup. *)
Record master := Master { m_aq : bool; m_primary : bool }.

(** The names a reactant contributes (Phreeqc.cpp 89-170): the totals of solutions, irreversible
    reactions, exchangers, surfaces and kinetics, and the element list of pure phases, are taken
    as they are; for gas phases and solid solutions, the formula of each component is added with
    the moles as factor, and [add_extensive] does nothing for factor 0 (NameDouble.cxx 195-200,
    GasPhase.cxx 462-482, SS.cxx 424-444). *)
Inductive part := Totals (names : list string) | Phases (comps : list (list string * Qc)).
Definition part_names (p : part) : list string :=
  match p with
  | Totals l => l
  | Phases cs => concat (map (fun c => if Qc_eq_bool c.2 0%Qc then [] else c.1) cs)
  end.
(** The accumulator, lines 84-170. Only its keys matter. *)
Definition accumulate (ps : list part) : list string :=
  fold_left (fun acc p => inss (part_names p) acc) ps [].

(** "Put in all primaries", lines 171-182. [ename] is the element name read off the entry
    ([get_elt] in master_bsearch_primary reads the leading element symbol; it is taken to be the
    text before the parenthesis). The name added is the visited one or a proper prefix of it, so it
    sorts before it and the iteration never visits it: the loop runs over the keys present at its
    start. *)
Fixpoint root_name (s : string) : string :=
  match s with
  | EmptyString => EmptyString
  | String c s' => if Ascii.eqb c lparen then EmptyString else String c (root_name s')
  end.
Definition add_primary (ms : nmap master) (acc : list string) (n : string) : list string :=
  if String.eqb n "Charge" then acc
  else match nd_find (root_name n) ms with
       | None => acc
       | Some m => if m_aq m then ins (root_name n) acc else acc
       end.
(** "print list", lines 183-194 *)
Definition printed (ms : nmap master) (n : string) : bool :=
  match nd_find n ms with
  | None => false
  | Some m => m_aq m && m_primary m
      && negb (String.eqb n "Charge") && negb (String.eqb n "O") && negb (String.eqb n "H")
  end.
Definition list_components (ms : nmap master) (ps : list part) : list string :=
  let acc := accumulate ps in
  List.filter (printed ms) (fold_left (add_primary ms) acc acc).

(** ** The engine's list of solid solutions, Phreeqc.cpp 286-362 *)

(** One entry per solid solution of any assemblage: its name and the set of its component phases
    (lines 290-314). *)
Definition ssets := list (string * list string).
(** Does some element of [b] occur in [a]? lines 324-333 *)
Definition common (a b : list string) : bool := existsb (fun x => existsb (String.eqb x) a) b.
(** The first [j] in [js] whose set meets [a], with what is before and after it. *)
Fixpoint split_common (a : list string) (js : ssets) : option (ssets * (string * list string) * ssets) :=
  match js with
  | [] => None
  | j :: js' =>
      if common a j.2 then Some ([], j, js')
      else match split_common a js' with
           | Some (pre, x, post) => Some (j :: pre, x, post)
           | None => None
           end
  end.
(** One round of the [while (repeat)] loop, lines 317-349: the first pair of indices [i < j], in
    lexicographic order, with a common component; set [j] is merged into set [i] and cleared. *)
Fixpoint merge_round (s : ssets) : option ssets :=
  match s with
  | [] => None
  | x :: s' =>
      match split_common x.2 s' with
      | Some (pre, j, post) => Some ((x.1, inss j.2 x.2) :: pre ++ (j.1, []) :: post)
      | None => match merge_round s' with Some r => Some (x :: r) | None => None end
      end
  end.
(** The loop, for at most [fuel] rounds. [list_ss] gives it one round per solid solution; a round
    clears a set, so it never needs more (proved, [merge_all_settled]). *)
Fixpoint merge_all (fuel : nat) (s : ssets) : ssets :=
  match fuel with
  | O => s
  | S f => match merge_round s with Some s' => merge_all f s' | None => s end
  end.
(** "Write lists", lines 350-361: pairs (component, solid solution). *)
Definition write_ss (s : ssets) : list (string * string) :=
  concat (map (fun x => map (fun c => (c, x.1)) x.2) s).
Definition list_ss (s : ssets) : list (string * string) := write_ss (merge_all (length s) s).

(** ** The other engine lists *)

(** list_Surfaces, Phreeqc.cpp 363-393: the set of pairs (type, name), by type and then by name. *)
Fixpoint ins_pair (x : string * string) (l : list (string * string)) : list (string * string) :=
  match l with
  | [] => [x]
  | y :: l' =>
      match scmp x.1 y.1 with
      | Lt => x :: l
      | Gt => y :: ins_pair x l'
      | Eq => match scmp x.2 y.2 with Lt => x :: l | Gt => y :: ins_pair x l' | Eq => l end
      end
  end.
Definition list_surfaces (comps : list (string * string)) : list (string * string) :=
  fold_left (fun acc x => ins_pair x acc) comps [].

(** list_EquilibriumPhases, list_GasComponents, list_KineticReactions, list_Exchangers (Phreeqc.cpp
    197-285, 394-433): the set of the names met. *)
Definition list_names (names : list string) : list string := inss names [].

(** ** PhreeqcRM::FindComponents *)

(** What the engine of InitialPhreeqc ([workers[nthreads]]) answers during one call. The lists are
    those of IPhreeqc::ListComponents (IPhreeqc.cpp 561-576), which are recomputed at the first
    GetComponentCount of the call and are not recomputed by the other getters. The runs of test
    solutions, surfaces and exchangers are arbitrary: [None]/[false] is a failing RunString. *)
Record engine (D SP : Type) := Engine {
  e_comps : list string;
  e_gfw : string -> D;
  (** SOLUTION with 1e-6 of each component: the species with their data, the element and redox
      names of the masters in use, the phases in use *)
  e_probe : list string -> option (list SP * list string * list string);
  e_unprobe : bool;
  e_surf : list (string * string);
  e_ex : list string;
  e_probe2 : list string -> bool;
  (** SURFACE / EXCHANGE of one type: names of the surface / exchange species *)
  e_surf_species : string -> option (list string);
  e_surf_drop : string -> bool;
  e_ex_species : string -> option (list string);
  e_ex_drop : string -> bool;
  e_unprobe2 : bool;
  e_eq : list string;
  e_gas : list string;
  e_kin : list string;
  e_ss : list (string * string)
}.
Arguments Engine {D SP}. Arguments e_comps {D SP}. Arguments e_gfw {D SP}. Arguments e_probe {D SP}.
Arguments e_unprobe {D SP}. Arguments e_surf {D SP}. Arguments e_ex {D SP}. Arguments e_probe2 {D SP}.
Arguments e_surf_species {D SP}. Arguments e_surf_drop {D SP}. Arguments e_ex_species {D SP}.
Arguments e_ex_drop {D SP}. Arguments e_unprobe2 {D SP}. Arguments e_eq {D SP}. Arguments e_gas {D SP}.
Arguments e_kin {D SP}. Arguments e_ss {D SP}.

(** The lists kept by the module. SurfaceSpeciesNamesList, SurfaceTypesList and SurfaceNamesList
    are only ever pushed to together and are kept as one list of triples (species, type, name);
    likewise the two exchange lists and the two solid-solution lists. [l_species] stands for
    species_names, species_z, species_d_25 and species_stoichiometry; s_num2rm_species_num is not
    modelled. *)
Record lists (D SP : Type) := Lists {
  l_comps : list string;
  l_gfw : list D;
  l_species : list SP;
  l_redox : list string;
  l_si : list string;
  l_surf : list (string * string * string);
  l_ex : list (string * string);
  l_eq : list string;
  l_gas : list string;
  l_kin : list string;
  l_ss : list (string * string)
}.
Arguments Lists {D SP}. Arguments l_comps {D SP}. Arguments l_gfw {D SP}. Arguments l_species {D SP}.
Arguments l_redox {D SP}. Arguments l_si {D SP}. Arguments l_surf {D SP}. Arguments l_ex {D SP}.
Arguments l_eq {D SP}. Arguments l_gas {D SP}. Arguments l_kin {D SP}. Arguments l_ss {D SP}.
Definition no_lists {D SP} : lists D SP := Lists [] [] [] [] [] [] [] [] [] [] [].

(** Lines 2878-2883 *)
Definition fixed (h2o : bool) : list string :=
  (if h2o then ["H2O"] else []) ++ ["H"; "O"; "Charge"].
(** Lines 2847-2887: old components beyond the first [fixed_components] positions, united with
    those of the engine. The asserts (2868-2871) are taken to be compiled out. *)
Definition new_components (h2o : bool) (old new : list string) : list string :=
  let fixed_components := if h2o then 4 else 3 in
  fixed h2o ++ inss new (inss (drop fixed_components old) []).

Section find.
  Context {D SP : Type} (one : D).
  Notation engine := (engine D SP).
  Notation lists := (lists D SP).

  Definition set_comps (l : lists) (c : list string) (g : list D) : lists :=
    Lists c g (l_species l) (l_redox l) (l_si l) (l_surf l) (l_ex l) (l_eq l) (l_gas l) (l_kin l) (l_ss l).
  (** Lines 2847-2900: component names and their gram formula weights. *)
  Definition find_comps (h2o : bool) (e : engine) (l : lists) : lists :=
    let c := new_components h2o (l_comps l) (e_comps e) in
    set_comps l c (map (fun n => if String.eqb n "Charge" then one else e_gfw e n) c).

  (** The components written into the test solutions, lines 2916-2923 and 3039-3046. *)
  Definition plain_comps (c : list string) : list string :=
    List.filter (fun n => negb (String.eqb n "H") && negb (String.eqb n "O")
                     && negb (String.eqb n "H2O") && negb (String.eqb n "Charge")) c.

  Definition set_species (l : lists) (s : list SP) (r si : list string) : lists :=
    Lists (l_comps l) (l_gfw l) s r si (l_surf l) (l_ex l) (l_eq l) (l_gas l) (l_kin l) (l_ss l).
  (** Lines 2906-2980. The species lists are cleared and refilled, SINamesList is only appended to
      (2963-2969); a failing DELETE afterwards leaves them filled. *)
  Definition find_species (e : engine) (l : lists) : lists * bool :=
    match e_probe e (plain_comps (l_comps l)) with
    | None => (l, false)
    | Some (s, r, phases) =>
        (set_species l s (inss (List.filter (fun n => negb (String.eqb n "E")) r) []) (l_si l ++ phases), e_unprobe e)
    end.

  (** Lines 2983-3027: the types met before or now, and for each the name given last. *)
  Definition surf_types (l : lists) (e : engine) : list string :=
    inss (map fst (e_surf e)) (inss (map (fun t => t.1.2) (l_surf l)) []).
  Definition surf_names (l : lists) (e : engine) : nmap string :=
    fold_left (fun m p => nd_set p.1 p.2 m) (e_surf e)
      (fold_left (fun m t => nd_set t.1.2 t.2 m) (l_surf l) []).
  Definition ex_sites (l : lists) (e : engine) : list string :=
    inss (e_ex e) (inss (map snd (l_ex l)) []).

  Definition set_surf (l : lists) (s : list (string * string * string)) : lists :=
    Lists (l_comps l) (l_gfw l) (l_species l) (l_redox l) (l_si l) s (l_ex l) (l_eq l) (l_gas l) (l_kin l) (l_ss l).
  (** Lines 3054-3095: the vectors are cleared, then refilled type by type until a run fails. *)
  Fixpoint surf_loop (e : engine) (names : nmap string) (types : list string)
      (acc : list (string * string * string)) : list (string * string * string) * bool :=
    match types with
    | [] => (acc, true)
    | t :: types' =>
        match e_surf_species e t with
        | None => (acc, false)
        | Some sp =>
            let acc' := acc ++ map (fun s => (s, t, default "" (nd_find t names))) sp in
            if e_surf_drop e t then surf_loop e names types' acc' else (acc', false)
        end
    end.
  Definition set_ex (l : lists) (s : list (string * string)) : lists :=
    Lists (l_comps l) (l_gfw l) (l_species l) (l_redox l) (l_si l) (l_surf l) s (l_eq l) (l_gas l) (l_kin l) (l_ss l).
  (** Lines 3096-3133 *)
  Fixpoint ex_loop (e : engine) (sites : list string) (acc : list (string * string))
      : list (string * string) * bool :=
    match sites with
    | [] => (acc, true)
    | t :: sites' =>
        match e_ex_species e t with
        | None => (acc, false)
        | Some sp =>
            let acc' := acc ++ map (fun s => (s, t)) sp in
            if e_ex_drop e t then ex_loop e sites' acc' else (acc', false)
        end
    end.

  (** Lines 3221-3253: components met before keep their name; each new one takes the name at the
      iterator [nit], which advances only when a component is new. *)
  Fixpoint ss_new (comps names : list string) (known : list string) (m : nmap string) : list string * nmap string :=
    match comps with
    | [] => (known, m)
    | c :: comps' =>
        if existsb (String.eqb c) known then ss_new comps' names known m
        else ss_new comps' (drop 1 names) (ins c known) (nd_set c (default "" (names !! 0)) m)
    end.
  Definition find_ss (old new : list (string * string)) : list (string * string) :=
    let known := inss (map fst old) [] in
    let m := fold_left (fun m p => nd_set p.1 p.2 m) old [] in
    let r := ss_new (map fst new) (map snd new) known m in
    map (fun c => (c, default "" (nd_find c r.2))) r.1.

  (** Lines 3146-3253 *)
  Definition find_rest (e : engine) (l : lists) : lists :=
    Lists (l_comps l) (l_gfw l) (l_species l) (l_redox l) (l_si l) (l_surf l) (l_ex l)
      (inss (e_eq e) (inss (l_eq l) [])) (inss (e_gas e) (inss (l_gas l) []))
      (inss (e_kin e) (inss (l_kin l) [])) (find_ss (l_ss l) (e_ss e)).

  (** Lines 2981-3254 *)
  Definition find_others (e : engine) (l : lists) : lists * bool :=
    let types := surf_types l e in
    let names := surf_names l e in
    let sites := ex_sites l e in
    let some := negb (length types =? 0)%nat || negb (length sites =? 0)%nat in
    if some && negb (e_probe2 e (plain_comps (l_comps l))) then (l, false)
    else
      let s := surf_loop e names types [] in
      let l1 := set_surf l s.1 in
      if s.2 then
        let x := ex_loop e sites [] in
        let l2 := set_ex l1 x.1 in
        if x.2 then
          if some && negb (e_unprobe2 e) then (l2, false)
          else (find_rest e l2, true)
        else (l2, false)
      else (l1, false).

  (** FindComponents, lines 2824-3263: the lists afterwards and the number of components, or
      nothing when a run failed ([catch (...)] returning IRM_FAIL). GenerateAutoOutputVars (3261)
      is not modelled. *)
  Definition find_components (h2o : bool) (e : engine) (l : lists) : lists * option nat :=
    let l1 := find_comps h2o e l in
    let s := find_species e l1 in
    if s.2 then
      let o := find_others e s.1 in
      (o.1, if o.2 then Some (length (l_comps o.1)) else None)
    else (s.1, None).

  (** Any number of calls. *)
  Definition find_all (h2o : bool) (es : list engine) (l : lists) : lists :=
    fold_left (fun l e => (find_components h2o e l).1) es l.
End find.
