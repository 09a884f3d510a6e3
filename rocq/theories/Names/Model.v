(** Name lists ([cxxNameDouble]) and the word dictionary.

    Source: phreeqcpp/NameDouble.cxx, phreeqcpp/NameDouble.h, phreeqcpp/Dictionary.cpp,
    phreeqcpp/Dictionary.h (under src/IPhreeqcPhast/IPhreeqc). *)
From Coq Require Import Ascii String.
From stdpp Require Import prelude strings.
From Verif.Base Require Import Result.

(** Byte order of strings: [std::string::operator<] and [strcmp] (both compare unsigned bytes;
    names hold no NUL byte). *)
Fixpoint scmp (a b : string) : comparison :=
  match a, b with
  | EmptyString, EmptyString => Eq
  | EmptyString, String _ _ => Lt
  | String _ _, EmptyString => Gt
  | String c a', String d b' =>
      match N.compare (N_of_ascii c) (N_of_ascii d) with
      | Eq => scmp a' b'
      | r => r
      end
  end.

(** [std::map<std::string, V>] (base class of cxxNameDouble, NameDouble.h 14): the list of its
    entries in iteration order, that is by increasing key. *)
Notation nmap V := (list (string * V)).

(** map::find *)
Fixpoint nd_find {V} (k : string) (l : nmap V) : option V :=
  match l with
  | [] => None
  | (n, v) :: l' => match scmp k n with Eq => Some v | Lt => None | Gt => nd_find k l' end
  end.

(** map::operator[] assignment *)
Fixpoint nd_set {V} (k : string) (v : V) (l : nmap V) : nmap V :=
  match l with
  | [] => [(k, v)]
  | (n, w) :: l' =>
      match scmp k n with
      | Eq => (n, v) :: l'
      | Lt => (k, v) :: l
      | Gt => (n, w) :: nd_set k v l'
      end
  end.

(** map::erase of a key *)
Fixpoint nd_erase {V} (k : string) (l : nmap V) : nmap V :=
  match l with
  | [] => []
  | (n, w) :: l' =>
      match scmp k n with Eq => l' | Lt => l | Gt => (n, w) :: nd_erase k l' end
  end.

(** ** Strings *)

Definition lparen : ascii := "("%char.

(** std::string::find("(") *)
Fixpoint find_paren (s : string) : option nat :=
  match s with
  | EmptyString => None
  | String c s' => if Ascii.eqb c lparen then Some 0 else option_map S (find_paren s')
  end.

(** std::string::substr(0, n); n beyond the end gives the whole string *)
Fixpoint prefix_of (n : nat) (s : string) : string :=
  match n, s with
  | S n', String c s' => String c (prefix_of n' s')
  | _, _ => EmptyString
  end.

(** NameDouble.cxx 283-300 and 315-331: the element name used while collapsing. *)
Definition ename (s : string) : string :=
  if decide (String.length s < 4) then s
  else match find_paren s with Some i => prefix_of i s | None => s end.

Section Amounts.
  (** Amounts: a commutative ring suffices; [LDBLE] is double. *)
  Context {V : Type} (zero : V) (add mul : V -> V -> V).

  (** NameDouble.cxx 301-302 *)
  Definition skipped (e : string) : bool :=
    String.eqb e "H" || String.eqb e "O" || String.eqb e "Charge".

  (** NameDouble.cxx 274-305: the list of elements, all amounts 0 *)
  Fixpoint elements_of (l new : nmap V) : nmap V :=
    match l with
    | [] => new
    | (n, _) :: l' =>
        elements_of l' (if skipped (ename n) then new else nd_set (ename n) zero new)
    end.

  (** NameDouble.cxx 307-347: the parallel walk that sums the totals *)
  Fixpoint sum_walk (old : nmap V) : nmap V -> nmap V :=
    fix walk (new : nmap V) : nmap V :=
      match old, new with
      | (o, x) :: old', (e, y) :: new' =>
          match scmp e (ename o) with
          | Lt => (e, y) :: walk new'
          | Eq => sum_walk old' ((e, add y x) :: new')
          | Gt => sum_walk old' new
          end
      | _, _ => new
      end.

  (** cxxNameDouble::Simplify_redox, NameDouble.cxx 268-349 *)
  Definition simplify_redox (l : nmap V) : nmap V := sum_walk l (elements_of l []).

  (** cxxNameDouble::Get_total_element, NameDouble.cxx 379-401 *)
  Definition total_element (e : string) (l : nmap V) : V :=
    fold_left
      (fun d p => let cur := match find_paren p.1 with Some i => prefix_of i p.1 | None => p.1 end in
                  if String.eqb cur e then add d p.2 else d) l zero.

  (** cxxNameDouble::add, NameDouble.cxx 402-420 *)
  Definition nd_add (k : string) (x : V) (l : nmap V) : nmap V :=
    match nd_find k l with
    | Some y => nd_set k (add y x) l
    | None => nd_set k x l
    end.

  (** cxxNameDouble::multiply, NameDouble.cxx 421-432 *)
  Definition nd_multiply (f : V) (l : nmap V) : nmap V := map (fun p => (p.1, mul p.2 f)) l.

  (** cxxNameDouble::add_extensive, NameDouble.cxx 200-221 *)
  Definition nd_add_extensive (is_zero : bool) (addee : nmap V) (f : V) (l : nmap V) : nmap V :=
    if is_zero then l
    else fold_left
           (fun acc p => match nd_find p.1 acc with
                         | Some y => nd_set p.1 (add y (mul p.2 f)) acc
                         | None => nd_set p.1 (mul p.2 f) acc
                         end) addee l.

  (** cxxNameDouble::add_intensive, NameDouble.cxx 222-243 *)
  Definition nd_add_intensive (addee : nmap V) (f1 f2 : V) (l : nmap V) : nmap V :=
    fold_left
      (fun acc p => match nd_find p.1 acc with
                    | Some y => nd_set p.1 (add (mul f1 y) (mul f2 p.2)) acc
                    | None => nd_set p.1 (mul f2 p.2) acc
                    end) addee l.

  (** NameDouble.cxx 452: [substr(0, pos - 1)]; for pos = 0 the unsigned subtraction wraps
      and the whole string is taken. *)
  Definition redox_elt (s : string) (pos : nat) : string :=
    match pos with 0 => s | S p => prefix_of p s end.

  (** NameDouble.cxx 471-490: erase every key that starts with the given text *)
  Definition erase_prefix (pre : string) (l : nmap V) : nmap V :=
    filter (fun p => negb (String.prefix pre p.1)) l.

  (** cxxNameDouble::merge_redox, NameDouble.cxx 433-496: one source entry *)
  Definition merge_one (l : nmap V) (p : string * V) : nmap V :=
    match find_paren p.1 with
    | Some pos => nd_set p.1 p.2 (nd_erase (redox_elt p.1 pos) l)
    | None => nd_set p.1 p.2 (erase_prefix (p.1 ++ "(") l)
    end.
  Definition merge_redox (l source : nmap V) : nmap V := fold_left merge_one source l.
End Amounts.

(** ** Dictionary (Dictionary.h 7-26): the map from words to numbers, the words in order, and the
    text written to the string stream. *)
Record dictionary := Dict {
  d_map : nmap nat;
  d_words : list string;
  d_text : string;
}.

Definition newline : ascii := "010"%char.

(** Dictionary::Dictionary(void) *)
Definition empty_dict : dictionary := Dict [] [] EmptyString.

(** Dictionary::Find, Dictionary.cpp 28-40 *)
Definition d_find (s : string) (d : dictionary) : nat * dictionary :=
  match nd_find s (d_map d) with
  | Some i => (i, d)
  | None =>
      let i := length (d_map d) in
      (i, Dict (nd_set s i (d_map d)) (d_words d ++ [s])
               (d_text d ++ s ++ String newline EmptyString))
  end.

(** istream::getline(str, 256): the next line and the rest, or nothing if the read fails. [n] is
    the room left in the buffer. A line is ended by a newline or by the end of the text; reading
    no character at all, or running out of room, fails. *)
Fixpoint getline (n : nat) (got : bool) (s : string) {struct s} : option (string * string) :=
  match s with
  | EmptyString => if got then Some (EmptyString, EmptyString) else None
  | String c s' =>
      if Ascii.eqb c newline then Some (EmptyString, s')
      else match n with
           | 0 => None
           | S n' => match getline n' true s' with
                     | Some (w, r) => Some (String c w, r)
                     | None => None
                     end
           end
  end.

(** [const char *] to [std::string]: the text up to the first NUL *)
Fixpoint cut_nul (s : string) : string :=
  match s with
  | EmptyString => EmptyString
  | String c s' => if Ascii.eqb c zero then EmptyString else String c (cut_nul s')
  end.

(** Dictionary::Dictionary(std::string&), Dictionary.cpp 15-23. [fuel] bounds the loop; every
    successful read consumes a character or reaches the end of the text. *)
Fixpoint read_dict (fuel : nat) (s : string) (d : dictionary) : dictionary :=
  match fuel with
  | 0 => d
  | S fuel' =>
      match getline 255 false s with
      | Some (w, r) => read_dict fuel' r (snd (d_find (cut_nul w) d))
      | None => d
      end
  end.
Definition dict_of_text (s : string) : dictionary := read_dict (S (String.length s)) s empty_dict.

(** ** Transfer form *)
Section Codec.
  Context {V : Type}.

  (** cxxNameDouble::Serialize, NameDouble.cxx 510-521 *)
  Fixpoint ser_entries (l : nmap V) (d : dictionary) (ints : list Z) (dbl : list V)
    : dictionary * list Z * list V :=
    match l with
    | [] => (d, ints, dbl)
    | (n, v) :: l' =>
        let r := d_find n d in
        ser_entries l' (snd r) (ints ++ [Z.of_nat (fst r)]) (dbl ++ [v])
    end.
  Definition nd_serialize (l : nmap V) (d : dictionary) (ints : list Z) (dbl : list V) :=
    ser_entries l d (ints ++ [Z.of_nat (length l)]) dbl.

  (** [v[i]] on a vector: out of range is undefined *)
  Definition at_int (l : list Z) (i : nat) : outcome Z :=
    match l !! i with Some x => Ret x | None => UB end.

  (** cxxNameDouble::Deserialize, NameDouble.cxx 522-538 *)
  Fixpoint deser_entries (count : nat) (d : dictionary) (ints : list Z) (dbl : list V)
      (ii dd : nat) (acc : nmap V) : outcome (nmap V * nat * nat) :=
    match count with
    | 0 => Ret (acc, ii, dd)
    | S c =>
        obind (at_int ints ii) (fun n =>
        if (n <? 0)%Z then UB
        else match d_words d !! Z.to_nat n with
             | None => UB
             | Some w =>
                 if decide (w = EmptyString) then deser_entries c d ints dbl (S ii) dd acc
                 else match dbl !! dd with
                      | None => UB
                      | Some v => deser_entries c d ints dbl (S ii) (S dd) (nd_set w v acc)
                      end
             end)
    end.
  Definition nd_deserialize (d : dictionary) (ints : list Z) (dbl : list V) (ii dd : nat)
    : outcome (nmap V * nat * nat) :=
    obind (at_int ints ii) (fun count => deser_entries (Z.to_nat count) d ints dbl (S ii) dd []).
End Codec.
