(** Reactant maps of a Phreeqc instance and cxxStorageBin. *)
From stdpp Require Import prelude gmap sorting.
Local Open Scope Z_scope.

(** The eleven reactant maps of a Phreeqc instance (Phreeqc.h: Rxn_..._map) and
    of a cxxStorageBin (StorageBin.h). *)
Inductive rtype :=
| RSolution | RExchange | RGas | RKinetics | RPP | RSS | RSurface
| RMix | RReaction | RTemperature | RPressure.

Global Instance rtype_eq_dec : EqDecision rtype.
Proof. solve_decision. Defined.

Definition rtype_nat (t : rtype) : nat :=
  match t with
  | RSolution => 0 | RExchange => 1 | RGas => 2 | RKinetics => 3 | RPP => 4 | RSS => 5
  | RSurface => 6 | RMix => 7 | RReaction => 8 | RTemperature => 9 | RPressure => 10
  end.
Definition nat_rtype (n : nat) : option rtype :=
  match n with
  | 0%nat => Some RSolution | 1%nat => Some RExchange | 2%nat => Some RGas
  | 3%nat => Some RKinetics | 4%nat => Some RPP | 5%nat => Some RSS | 6%nat => Some RSurface
  | 7%nat => Some RMix | 8%nat => Some RReaction | 9%nat => Some RTemperature
  | 10%nat => Some RPressure | _ => None
  end.
Global Instance rtype_countable : Countable rtype.
Proof. apply (inj_countable rtype_nat nat_rtype). by intros []. Defined.

(** Order of treatment in StorageBin.cxx and structures.cpp. *)
Definition all_types : list rtype :=
  [RSolution; RExchange; RGas; RKinetics; RPP; RSS; RSurface;
   RMix; RReaction; RTemperature; RPressure].

(** The types handled by Phreeqc::phreeqc2cxxStorageBin(sb, n)
    (phreeqcpp/structures.cpp 3118-3181). *)
Definition cell_types : list rtype :=
  [RSolution; RExchange; RGas; RKinetics; RPP; RSS; RSurface].

Section bin.
  Context {E : Type}.   (* content of a reactant, apart from its numbers *)

  (** A reactant: cxxNumKeyword (n_user, n_user_end) plus its content. *)
  Record entity := Ent { e_n : Z; e_end : Z; e_body : E }.

  (** Both a Phreeqc instance's maps and a bin: (type, key) -> entity. *)
  Local Notation bin := (gmap (rtype * Z) entity).

  (** NumKeyword.h: Set_n_user_both. *)
  Definition renumber (n : Z) (e : entity) : entity := Ent n n (e_body e).

  (** StorageBin.cxx 449-761: Set_<Type>(n, entity). *)
  Definition bin_set (t : rtype) (n : Z) (e : entity) (b : bin) : bin :=
    <[(t, n) := renumber n e]> b.

  (** StorageBin.cxx 1219-1254: Remove(n). *)
  Definition bin_remove (n : Z) (b : bin) : bin :=
    foldl (fun b t => delete (t, n) b) b all_types.

  (** StorageBin.cxx 126-195: Add(src, n). *)
  Definition bin_add (src : bin) (n : Z) (b : bin) : bin :=
    foldl (fun b t => match src !! (t, n) with Some e => bin_set t n e b | None => b end)
      b all_types.

  (** StorageBin.cxx 344-436: Copy(destination, source). *)
  Definition bin_copy (dst src : Z) (b : bin) : bin :=
    if decide (dst = src) then b
    else foldl (fun b t => match b !! (t, src) with Some e => bin_set t dst e b | None => b end)
           (bin_remove dst b) all_types.

  (** structures.cpp 3118-3181: phreeqc2cxxStorageBin(sb, n); [w] are the maps of
      the Phreeqc instance.  Reaction, mix, temperature and pressure are not copied. *)
  Definition phreeqc2bin_n (w sb : bin) (n : Z) : bin :=
    foldl (fun b t => match w !! (t, n) with Some e => bin_set t n e b | None => b end)
      sb cell_types.

  (** structures.cpp 3182-3279: cxxStorageBin2phreeqc(sb, n). *)
  Definition bin2phreeqc_n (sb w : bin) (n : Z) : bin :=
    foldl (fun w t => match sb !! (t, n) with Some e => <[(t, n) := e]> w | None => w end)
      w all_types.

  (** Keys of one of the maps in increasing order (std::map iteration). *)
  Definition keys_of (t : rtype) (w : bin) : list Z :=
    merge_sort Z.le (snd <$> filter (fun tn => tn.1 = t) (fst <$> map_to_list w)).

  (** structures.cpp 3016-3116: phreeqc2cxxStorageBin(sb): every reactant is
      stored under the number it carries, not under its key. *)
  Definition store_all (t : rtype) (w : bin) (b : bin) : bin :=
    foldl (fun b k => match w !! (t, k) with Some e => bin_set t (e_n e) e b | None => b end)
      b (keys_of t w).
  Definition phreeqc2bin (w sb : bin) : bin := foldl (fun b t => store_all t w b) sb all_types.

  (** "DELETE; -cell n" (ReadClass.cxx delete_entities, all eleven types): the
      same effect on the maps of the instance as Remove(n). *)
  Definition delete_cell (n : Z) (w : bin) : bin := bin_remove n w.
End bin.
Arguments entity : clear implicits.
Global Instance entity_eq_dec {E} `{EqDecision E} : EqDecision (entity E).
Proof. solve_decision. Defined.
Notation bin E := (gmap (rtype * Z) (entity E)).
