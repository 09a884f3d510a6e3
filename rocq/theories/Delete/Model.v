(** DELETE: from the lines of a data block to the reactants that are gone.

    Source: src/IPhreeqcPhast/IPhreeqc/phreeqcpp/StorageBinList.cpp and .h, ReadClass.cxx (read_delete,
    delete_entities), common/Parser.cxx (token_type, get_option); IPhreeqc.cpp (do_run). Lines at each definition.

    A line is the list of its words; the lines of a block have been cut at semicolons and ends of lines, comments and
    blank lines are gone (as in [Verif.Raw]). [operator>>(int&)] is that of libstdc++: it stops at the first
    character that is not a digit. What an input does besides deleting is whether it stops with an error. *)
From Coq Require Import String Ascii ZArith.
From stdpp Require Import prelude strings pretty gmap.
From Verif.Base Require Import Result.
From Verif.Reactant Require Model.
From Verif.Raw Require Import Model.
Local Open Scope string_scope.

(** ** One word: a number or a range *)

Definition int_max : Z := 2147483647.
Definition int_min : Z := -2147483648.

(** StorageBinList.h 9-26 *)
Record item := Item { defined : bool; numbers : gset Z }.
Definition off : item := Item false ∅.
Definition whole : item := Item true ∅.

(** token.find("--") and token.replace(pos, 2, " &"): StorageBinList.cpp 53-56 *)
Fixpoint mark (s : string) : string :=
  match s with
  | String a s' => match s' with
                   | String b s'' => if Ascii.eqb a "-" && Ascii.eqb b "-" then String " " (String "&" s'')
                                     else String a (mark s')
                   | EmptyString => s
                   end
  | EmptyString => ""
  end.
(** std::replace from the second character on, 57-58 *)
Fixpoint swap_all (s : string) : string :=
  match s with
  | EmptyString => ""
  | String a s' => String (if Ascii.eqb a "-" then " "%char else if Ascii.eqb a "&" then "-"%char else a) (swap_all s')
  end.
Definition swap (s : string) : string := match s with EmptyString => "" | String a s' => String a (swap_all s') end.

(** iss >> i, for an int *)
Definition digit (a : ascii) : option Z :=
  let n := nat_of_ascii a in if decide (48 <= n /\ n <= 57) then Some (Z.of_nat (n - 48)) else None.
Fixpoint digits (v : Z) (some : bool) (s : string) : option Z * string :=
  match s with
  | EmptyString => (if some then Some v else None, "")
  | String a s' => match digit a with
                   | Some d => digits (v * 10 + d)%Z true s'
                   | None => (if some then Some v else None, s)
                   end
  end.
Fixpoint skip (s : string) : string :=
  match s with EmptyString => "" | String a s' => if blank a then skip s' else s end.
Definition in_int (z : Z) : bool := (int_min <=? z)%Z && (z <=? int_max)%Z.
Definition get_int (s : string) : option Z * string :=
  let '(neg, s1) := match skip s with
                    | String a s' => if Ascii.eqb a "-" then (true, s')
                                     else if Ascii.eqb a "+" then (false, s') else (false, String a s')
                    | EmptyString => (false, "")
                    end in
  let '(o, s2) := digits 0 false s1 in
  (match o with
   | Some v => let z := if neg then (- v)%Z else v in if in_int z then Some z else None
   | None => None
   end, s2).

(** for (i = i1; i <= i2; i++) insert(i), 88-91: i overflows if i2 is the largest int *)
Definition range (i1 i2 : Z) : gset Z := list_to_set (seqZ i1 (i2 - i1 + 1)).
(** StorageBinListItem::Augment(std::string), 46-93 *)
Definition augment (token : string) (it : item) : outcome item :=
  match token with
  | EmptyString => Ret (Item true (numbers it))
  | _ =>
    let s := swap (mark token) in
    let '(o1, r1) := get_int s in
    match o1 with
    | None => Ret (Item true (numbers it))
    | Some a =>
        match (get_int r1).1 with
        | None => Ret (Item true ({[a]} ∪ numbers it))
        | Some b =>
            if decide (a = b) then Ret (Item true ({[a]} ∪ numbers it))
            else if decide (Z.max a b = int_max) then UB
            else Ret (Item true (range (Z.min a b) (Z.max a b) ∪ numbers it))
        end
    end
  end.
(** StorageBinListItem::Augment(int), 94-100 *)
Definition augment_int (i : Z) (it : item) : item :=
  if defined it && bool_decide (numbers it = ∅) then it else Item true ({[i]} ∪ numbers it).

(** ** The lists *)

(** StorageBinList.h 65-77, in the order of GetAllItems, StorageBinList.cpp 119-135 *)
Inductive kind := Solution | PPassemblage | Exchange | Surface | SSassemblage | GasPhase | Kinetics | Mix
  | Reaction | Temperature | Pressure.
Global Instance kind_eq_dec : EqDecision kind.
Proof. solve_decision. Defined.
Record lists := Lists { items : kind -> item; cell : item }.
Definition set_item (k : kind) (it : item) (b : lists) : lists :=
  Lists (fun k' => if decide (k' = k) then it else items b k') (cell b).
(** SetAll, 137-146 *)
Definition set_all (tf : bool) (b : lists) : lists := Lists (fun _ => Item tf ∅) (cell b).
(** TransferAll, 324-336 *)
Definition transfer_all (src : item) (b : lists) : lists :=
  Lists (fun k => foldl (fun it i => augment_int i it) (items b k) (elements (numbers src))) (cell b).

(** vopts, 337-358, and the switch that chooses the item, 173-219 *)
Inductive target := Kind (k : kind) | Cell | All.
Definition vopts : list (string * target) :=
  [("solution", Kind Solution); ("pp_assemblage", Kind PPassemblage); ("equilibrium_phases", Kind PPassemblage);
   ("exchange", Kind Exchange); ("surface", Kind Surface); ("ss_assemblage", Kind SSassemblage);
   ("solid_solution", Kind SSassemblage); ("solid_solutions", Kind SSassemblage); ("gas_phase", Kind GasPhase);
   ("kinetics", Kind Kinetics); ("mix", Kind Mix); ("reaction", Kind Reaction); ("temperature", Kind Temperature);
   ("all", All); ("cell", Cell); ("cells", Cell); ("reaction_temperature", Kind Temperature);
   ("pressure", Kind Pressure); ("reaction_pressure", Kind Pressure)].

(** get_option, Parser.cxx 758-826: option, line without option, unknown option, keyword *)
Inductive code := IsKey | IsUnknown | IsPlain | IsOpt (t : target).
Definition get_option (l : list string) : code * list string :=
  match l with
  | [] => (IsPlain, [])
  | s :: args =>
      let at_opt o := default IsUnknown (IsOpt ∘ snd <$> vopts !! o) in
      if keyword s then (IsKey, l)
      else match dashed s with
           | Some o => match find_option false (Reactant.Model.lowered o) vopts.*1 0 with
                       | Some i => (at_opt i, args)
                       | None => (IsUnknown, l)
                       end
           | None => match find_option true (Reactant.Model.lowered s) vopts.*1 0 with
                     | Some i => (at_opt i, args)
                     | None => (IsPlain, l)
                     end
           end
  end.

(** token_type, Parser.cxx 550-576: TT_DIGIT *)
Definition numeric (s : string) : bool :=
  match s with
  | EmptyString => false
  | String a _ => bool_decide (is_Some (digit a)) || Ascii.eqb a "." || Ascii.eqb a "-"
  end.
(** The words of a line, 221-254; [false]: an error was reported. The empty word at the end counts. *)
Fixpoint read_words (ws : list string) (it : item) : outcome (item * bool) :=
  match ws with
  | [] => obind (augment "" it) (fun it' => Ret (it', true))
  | w :: ws' => if numeric w then obind (augment w it) (read_words ws') else Ret (it, false)
  end.

(** StorageBinList::Read, 148-322: the loop; [false]: errors were reported *)
Definition with_item (t : target) (b : lists) (ws : list string) : outcome (lists * bool) :=
  match t with
  | Kind k => obind (read_words ws (items b k)) (fun r => Ret (set_item k r.1 b, r.2))
  | Cell => obind (read_words ws (cell b)) (fun r => Ret (Lists (items b) r.1, r.2))
  | All => Ret (set_all true b, true)
  end.
Fixpoint read_lines (save : option target) (ls : list (list string)) (b : lists) : outcome (lists * bool) :=
  match ls with
  | [] => Ret (b, true)
  | l :: ls' =>
      let go t args := obind (with_item t b args) (fun r =>
                       obind (read_lines (Some t) ls' r.1) (fun r' => Ret (r'.1, r.2 && r'.2))) in
      match get_option l with
      | (IsOpt t, args) => go t args
      | (IsPlain, args) => match save with Some t => go t args | None => Ret (b, false) end
      | (IsUnknown, _) => Ret (b, false)
      | (IsKey, _) => Ret (b, true)
      end
  end.
(** 309-320 *)
Definition settle (b : lists) : lists :=
  if defined (cell b) then
    if decide (numbers (cell b) = ∅) then set_all true b else transfer_all (cell b) b
  else b.
Definition read (ls : list (list string)) (b : lists) : outcome (lists * bool) :=
  obind (read_lines None ls (Lists (items b) off)) (fun r => Ret (settle r.1, r.2)).
(** read_delete, ReadClass.cxx 84-131: the first line of the block, with the keyword, is skipped whole. *)
Definition read_delete (block : list (list string)) (b : lists) : outcome (lists * bool) := read (tail block) b.

(** ** Deleting *)

Section Delete.
Context {E : kind -> Type}.
(** The Rxn maps of the engine *)
Definition tables : Type := forall k : kind, gmap Z (E k).
(** delete_entities, ReadClass.cxx 264-463 *)
Definition erase {A} (it : item) (m : gmap Z A) : gmap Z A :=
  if defined it then
    if decide (numbers it = ∅) then ∅ else foldl (fun m n => delete n m) m (elements (numbers it))
  else m.
Definition delete_entities (b : lists) (t : tables) : lists * tables :=
  (set_all false b, fun k => erase (items b k) (t k)).

(** A simulation of an input with some DELETE blocks: read_input, then the calculations, which change the tables to
    [react t], then delete_entities, IPhreeqc.cpp 1233-1487. If there were errors, or if the calculations stop, it
    is not reached (tidy.cpp 465-468). [None] for [react]: stops. *)
Fixpoint read_blocks (bs : list (list (list string))) (b : lists) : outcome (lists * bool) :=
  match bs with
  | [] => Ret (b, true)
  | x :: bs' => obind (read_delete x b) (fun r => obind (read_blocks bs' r.1) (fun r' => Ret (r'.1, r.2 && r'.2)))
  end.
Definition simulate (bs : list (list (list string))) (react : tables -> option tables) (s : lists * tables)
    : outcome ((lists * tables) * bool) :=
  obind (read_blocks bs s.1) (fun r =>
  if r.2 then match react s.2 with
              | Some t => Ret (delete_entities r.1 t, true)
              | None => Ret ((r.1, s.2), false)
              end
  else Ret ((r.1, s.2), false)).
End Delete.
Arguments tables : clear implicits.

(** ** What PhreeqcRM writes *)

(** std::ostream << int *)
Definition dec (z : Z) : string := pretty z.
(** "DELETE; -cells" and each cell on a line, PhreeqcRM.cpp 6380-6388 *)
Definition delete_cells_text (l : list Z) : list (list string) :=
  ["DELETE"] :: ["-cells"] :: map (fun i => [dec i]) l.
(** "DELETE; -cell n", 8662, 9593; "DELETE; -solution n", 2972, 3138 *)
Definition delete_cell_text (i : Z) : list (list string) := [["DELETE"]; ["-cell"; dec i]].
Definition delete_solution_text (n : Z) : list (list string) := [["DELETE"]; ["-solution"; dec n]].
(** "DELETE -surface n" and "DELETE -exchange n", without a semicolon, 3086 and 3125 *)
Definition delete_surface_text (n : Z) : list (list string) := [["DELETE"; "-surface"; dec n]].
Definition delete_exchange_text (n : Z) : list (list string) := [["DELETE"; "-exchange"; dec n]].
