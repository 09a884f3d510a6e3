(** The first line of a definition, definitions for a range of numbers, and COPY.

    Source: src/IPhreeqcPhast/IPhreeqc/phreeqcpp/NumKeyword.cxx, Phreeqc.h (Utilities), read.cpp (read_copy),
    mainsubs.cpp (copy_entities), common/Parser.cxx (token_type, copy_token), common/Utils.cxx (replace);
    IPhreeqc.cpp (do_run). Lines at each definition.

    A line has no end of line and no null character in it. [operator>>(int&)] is that of libstdc++. What an entity
    holds besides its numbers (its description included) is a type that is left open. *)
From Coq Require Import String Ascii ZArith.
From stdpp Require Import prelude strings pretty gmap.
From Verif.Base Require Import Result.
From Verif.Raw Require Import Model.
From Verif.Delete Require Import Model.
Local Open Scope string_scope.

(** ** Words and numbers *)

(** CParser::copy_token, Parser.cxx 587-607: blanks, then up to the next blank *)
Fixpoint word (s : string) : string :=
  match s with EmptyString => "" | String a s' => if blank a then "" else String a (word s') end.
Fixpoint after_word (s : string) : string :=
  match s with EmptyString => "" | String a s' => if blank a then s else after_word s' end.
Definition copy_token (s : string) : string * string := (word (skip s), after_word (skip s)).

(** The sign and the digits that %d and operator>>(int&) read: the number, however large, and what follows *)
Definition numeral (s : string) : option Z * string :=
  let '(neg, s1) := match skip s with
                    | String a s' => if Ascii.eqb a "-" then (true, s')
                                     else if Ascii.eqb a "+" then (false, s') else (false, String a s')
                    | EmptyString => (false, "")
                    end in
  let '(o, s2) := digits 0 false s1 in
  ((fun v => if neg then (- v)%Z else v) <$> o, s2).

(** operator>>(int&): a number; or the failbit is set and 0 or a limit of int is stored; or, as nothing but blanks was
    left, the failbit is set and nothing is stored *)
Inductive extracted := Got (z : Z) (rest : string) | Stored (z : Z) | Untouched.
Definition extract (s : string) : extracted :=
  match skip s with
  | EmptyString => Untouched
  | _ => match numeral s with
         | (Some z, r) => if in_int z then Got z r else Stored (if decide (z < 0)%Z then int_min else int_max)
         | (None, _) => Stored 0
         end
  end.
(** sscanf "%d": a number that is no int is undefined behaviour *)
Definition scan (s : string) : outcome (option Z * string) :=
  match numeral s with
  | (Some z, r) => if in_int z then Ret (Some z, r) else UB
  | (None, _) => Ret (None, s)
  end.
(** sscanf "%d%d": the numbers that were read *)
Definition scan2 (s : string) : outcome (list Z) :=
  obind (scan s) (fun x =>
  match x.1 with
  | None => Ret []
  | Some a => obind (scan x.2) (fun y => Ret (match y.1 with None => [a] | Some b => [a; b] end))
  end).

(** ** The first line of a definition *)

Record heading := Heading { n_user : Z; n_user_end : Z; description : string }.

(** cxxNumKeyword::read_number_description(CParser &), NumKeyword.cxx 55-98: EXCHANGE_RAW and so on. The numbers are 1
    and the description is empty before (20-32). After the failbit is set, peek is EOF and getline does nothing. *)
Definition from_parser (line : string) : heading :=
  let s := skip (copy_token line).2 in (* 61-65 *)
  match s with
  | String c _ =>
      if bool_decide (is_Some (digit c)) || Ascii.eqb c "-" then (* 68 *)
        match extract s with (* 70 *)
        | Got a (String d r) =>
            if Ascii.eqb d "-" then (* 72-80 *)
              match extract r with
              | Got b r' => Heading a (if decide (b < a)%Z then a else b) (skip r')
              | Stored b => Heading a (if decide (b < a)%Z then a else b) ""
              | Untouched => Heading a (if decide (1 < a)%Z then a else 1) ""
              end
            else Heading a a (skip (String d r)) (* 81-84, 92-97 *)
        | Got a EmptyString => Heading a a ""
        | Stored a => Heading a a ""
        | Untouched => Heading 1 1 ""
        end
      else Heading 1 1 s (* 86-89 *)
  | EmptyString => Heading 1 1 ""
  end.

(** Utilities::replace("-", " ", ...), Utils.cxx 102-112: the first one *)
Fixpoint blank_dash (s : string) : string :=
  match s with EmptyString => "" | String a s' => if Ascii.eqb a "-" then String " " s' else String a (blank_dash s') end.
(** NumKeyword.cxx 151-160 *)
Definition cut (w : string) : string :=
  match w with
  | String a w' => if Ascii.eqb a "-" then String "-" (blank_dash w') else blank_dash w
  | EmptyString => ""
  end.
(** cxxNumKeyword::read_number_description(const std::string &), 134-187: SOLUTION, EXCHANGE, SOLUTION_RAW and so on.
    trim_left: Parser.h 287-295. *)
Definition from_string (line : string) : outcome heading :=
  let '(w, r) := copy_token (copy_token line).2 in (* 144-147 *)
  if numeric w then
    obind (scan2 (cut w)) (fun l =>
    let '(a, b) := match l with a :: b :: _ => (a, b) | [a] => (a, a) | [] => (1, 1)%Z end in (* 161-169 *)
    Ret (Heading a (if decide (b < a)%Z then a else b) (skip r)))
  else Ret (Heading 1 1 (skip (w +:+ r))).

(** The first line of a dump: Solution.cxx 247-249, Exchange.cxx 142-144 and so on *)
Definition dumped (indent key : string) (n : Z) (d : string) : string :=
  indent +:+ key +:+ " " +:+ pretty n +:+ " " +:+ d.

(** ** Definitions for a range of numbers *)

(** An entity: cxxNumKeyword and the rest *)
Record numbered (A : Type) := Num { num : Z; num_end : Z; body : A }.
Arguments Num {A}. Arguments num {A}. Arguments num_end {A}. Arguments body {A}.

Section Tables.
Context {A : Type}.
Implicit Types (m : gmap Z (numbered A)) (e : numbered A).
Definition renumber (j : Z) e : numbered A := Num j j (body e).
(** The loop of Rxn_copies, Phreeqc.h 1978-1984: each is copied from the one before. *)
Fixpoint copy_on (c : nat) (j : Z) (it : numbered A) m : gmap Z (numbered A) :=
  match c with
  | O => m
  | S c' => copy_on c' (j + 1) (renumber j it) (<[j := renumber j it]> m)
  end.
(** Rxn_copies, 1970-1986: j overflows if n_user_end is the largest int. *)
Definition rxn_copies (a b : Z) m : outcome (gmap Z (numbered A)) :=
  if decide (b <= a)%Z then Ret m
  else match m !! a with
       | None => Ret m
       | Some e => if decide (b = int_max) then UB else Ret (copy_on (Z.to_nat (b - a)) (a + 1) e m)
       end.
(** Rxn_read_raw, 1987-2012: [e] is what was read, with [errors] errors; [s] are the numbers that are new. The loop of
    2007-2010 does not end if n_user_end is the largest int. *)
Definition rxn_read_raw (e : numbered A) (errors : nat) m (s : gset Z) : outcome (gmap Z (numbered A) * gset Z) :=
  let m1 := match errors with O => <[num e := e]> m | S _ => m end in
  obind (rxn_copies (num e) (num_end e) m1) (fun m2 =>
  if decide (num_end e = int_max) then UB else Ret (m2, range (num e) (num_end e) ∪ s)).
(** Rxn_copy, 1951-1968 *)
Definition rxn_copy (i j : Z) m : gmap Z (numbered A) :=
  match m !! i with Some e => <[j := renumber j e]> m | None => m end.

(** ** COPY *)

(** Conversions from int to size_t and back *)
Definition u64 (z : Z) : Z := z mod 2 ^ 64.
Definition i32 (u : Z) : Z := (u + 2 ^ 31) mod 2 ^ 32 - 2 ^ 31.
(** One request for one kind, mainsubs.cpp 1867-1878: i is a size_t. If the end is the largest size_t the loop never
    ends, which is undefined behaviour. *)
Record request := Req { source : Z; start : Z; finish : Z }.
Definition copy_range (q : request) m : outcome (gmap Z (numbered A)) :=
  match m !! source q with
  | None => Ret m
  | Some _ =>
      if decide (u64 (finish q) = 2 ^ 64 - 1)%Z then UB
      else Ret (foldl (fun m i => if decide (i = u64 (source q)) then m else rxn_copy (source q) (i32 i) m) m
                      (seqZ (u64 (start q)) (u64 (finish q) - u64 (start q) + 1)))
  end.
Fixpoint copy_kind (qs : list request) m : outcome (gmap Z (numbered A)) :=
  match qs with
  | [] => Ret m
  | q :: qs' => obind (copy_range q m) (copy_kind qs')
  end.
End Tables.

(** A COPY line, read.cpp 9887-10060: the keyword of a kind, or "cell" for [None]; which keyword it is has been found.
    [None]: an error was reported. If sscanf finds no number, what is used is indeterminate. *)
Definition read_request (src tgt : string) : outcome (option request) :=
  if numeric src then (* 9947-9951 *)
    obind (scan src) (fun x =>
    match x.1 with
    | None => UB
    | Some n =>
        if numeric tgt then (* 9981-9990 *)
          obind (scan2 (match tgt with String a t => String a (blank_dash t) | EmptyString => "" end)) (fun l =>
          match l with
          | a :: b :: _ => Ret (Some (Req n a b))
          | [a] => Ret (Some (Req n a a))
          | [] => UB
          end)
        else Ret None
    end)
  else Ret None.
Record copy_line := CopyLine { what : option kind; from : string; to : string }.
Definition queues : Type := kind -> list request.
(** copier_add, structures.cpp 2877-2889; read.cpp 10008-10019 *)
Definition add_request (w : option kind) (q : request) (c : queues) : queues :=
  fun k => match w with Some k' => if decide (k = k') then (c k ++ [q])%list else c k | None => (c k ++ [q])%list end.
Fixpoint read_copies (ls : list copy_line) (c : queues) : outcome (queues * bool) :=
  match ls with
  | [] => Ret (c, true)
  | l :: ls' =>
      obind (read_request (from l) (to l)) (fun o =>
      obind (read_copies ls' (match o with Some q => add_request (what l) q c | None => c end)) (fun r =>
      Ret (r.1, match o with Some _ => r.2 | None => false end)))
  end.

Section Copy.
Context {E : kind -> Type}.
(** The Rxn maps *)
Definition stores : Type := tables (fun k => numbered (E k)).
Implicit Types (t : stores).
Definition set_table {k} (m : gmap Z (numbered (E k))) t : stores := fun k' =>
  match decide (k = k') with left H => eq_rect k (fun k => gmap Z (numbered (E k))) m k' H | right _ => t k' end.
(** The kinds in the order of copy_entities *)
Definition copy_order : list kind :=
  [Solution; PPassemblage; Reaction; Mix; Exchange; Surface; Temperature; Pressure; GasPhase; Kinetics; SSassemblage].
(** copy_entities, mainsubs.cpp 1861-2025 *)
Fixpoint copy_kinds (ks : list kind) (c : queues) t : outcome stores :=
  match ks with
  | [] => Ret t
  | k :: ks' => obind (copy_kind (c k) (t k)) (fun m => copy_kinds ks' c (set_table m t))
  end.
Definition no_requests : queues := fun _ => [].

(** What the engine keeps: requests that wait, new_copy, what waits to be deleted, the tables *)
Record engine := Engine { waiting : queues; new_copy : bool; doomed : lists; stored : stores }.
(** A simulation with COPY lines [cs] and DELETE blocks [bs]. tidy_model sets new_copy (tidy.cpp 141-144) and stops if
    there were errors (465-468); [react] is the calculations, [None] if they stop; then copy_entities and
    delete_entities, IPhreeqc.cpp 1448 and 1487. *)
Definition simulation (cs : list copy_line) (bs : list (list (list string))) (react : stores -> option stores)
    (s : engine) : outcome (engine * bool) :=
  obind (read_copies cs (waiting s)) (fun c =>
  obind (read_blocks bs (doomed s)) (fun b =>
  let flag := match cs with [] => new_copy s | _ => true end in
  let stop := Ret (Engine c.1 flag b.1 (stored s), false) in
  if c.2 && b.2 then
    match react (stored s) with
    | None => stop
    | Some t =>
        obind (if flag then copy_kinds copy_order c.1 t else Ret t) (fun t' =>
        let d := delete_entities b.1 t' in
        Ret (Engine (if flag then no_requests else c.1) false d.1 d.2, true))
    end
  else stop)).
End Copy.
Arguments stores : clear implicits.
Arguments engine : clear implicits.
