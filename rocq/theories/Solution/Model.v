(** Solutions: mixing, scaling and updating of totals.

    Source: phreeqcpp/Solution.cxx, phreeqcpp/cxxMix.h (under src/IPhreeqcPhast/IPhreeqc).

    [LDBLE] (double) is modelled by exact rationals: rounding is not modelled, and a division by
    zero, which gives a NaN or an infinity in the code, gives 0 here; every theorem excludes it.
    Not modelled: master_activity and the two logarithm maps (they need log10/pow), potV,
    initial_data and the description. *)
From Coq Require Import String QArith Qcanon.
From stdpp Require Import prelude strings gmap.
From Verif.Base Require Import Result.
From Verif.Names Require Import Model.
Local Open Scope Z_scope.
Local Open Scope Qc_scope.

(** SolutionIsotope.h: the part of cxxSolutionIsotope that Add_isotopes touches. *)
Record iso := Iso { i_total : Qc; i_ratio : Qc; i_unc : Qc; i_uncdef : bool }.

(** Solution.h 120-152, Solution.cxx 31-59 *)
Record sol := Sol {
  s_tc : Qc; s_ph : Qc; s_pe : Qc; s_mu : Qc; s_ah2o : Qc;
  s_dens : Qc; s_visc : Qc; s_visc0 : Qc; s_patm : Qc;
  s_h : Qc; s_o : Qc; s_cb : Qc; s_mw : Qc; s_vol : Qc; s_alk : Qc;
  s_totals : nmap Qc;
  s_gamma : nmap Qc;
  s_iso : nmap iso;
  s_species : gmap Z Qc;
}.

(** cxxSolution::zero on a fresh object, Solution.cxx 1386-1409, and the first lines of the mixing
    constructor, 107-119 *)
Definition sol_zero : sol :=
  Sol 0 0 0 0 0 1 1 1 1 0 0 0 0 0 0 [] [] [] ∅.

(** cxxSolution::Add_isotopes, Solution.cxx 1543-1573; the map key is the isotope name *)
Definition add_isotopes (old : nmap iso) (f2 x : Qc) (l : nmap iso) : nmap iso :=
  fold_left
    (fun acc p =>
       match nd_find p.1 acc with
       | Some i =>
           nd_set p.1 (Iso (i_total i + i_total p.2 * x) (i_ratio i + i_ratio p.2 * f2)
                           (i_unc i + i_unc p.2 * f2) (i_uncdef i || i_uncdef p.2)) acc
       | None => nd_set p.1 (Iso (i_total p.2 * x) (i_ratio p.2) (i_unc p.2) (i_uncdef p.2)) acc
       end) old l.

(** cxxSolution::add, the species loop, Solution.cxx 1443-1456 *)
Definition add_species (addee : gmap Z Qc) (f1 f2 : Qc) (l : gmap Z Qc) : gmap Z Qc :=
  union_with (fun x y => Some (x * f1 + y * f2)) l addee.

Definition Qc_zerob (x : Qc) : bool := Qeq_bool (this x) 0.

(** cxxSolution::add, Solution.cxx 1411-1484 *)
Definition sol_add (a : sol) (x : Qc) (s : sol) : sol :=
  if Qc_zerob x then s
  else
    let ext1 := s_mw s in
    let ext2 := s_mw a * x in
    let f1 := ext1 / (ext1 + ext2) in
    let f2 := ext2 / (ext1 + ext2) in
    Sol (f1 * s_tc s + f2 * s_tc a) (f1 * s_ph s + f2 * s_ph a) (f1 * s_pe s + f2 * s_pe a)
        (f1 * s_mu s + f2 * s_mu a) (f1 * s_ah2o s + f2 * s_ah2o a)
        (f1 * s_dens s + f2 * s_dens a) (f1 * s_visc s + f2 * s_visc a)
        (f1 * s_visc0 s + f2 * s_visc0 a) (f1 * s_patm s + f2 * s_patm a)
        (s_h s + s_h a * x) (s_o s + s_o a * x) (s_cb s + s_cb a * x)
        (s_mw s + s_mw a * x) (s_vol s + s_vol a * x) (s_alk s + s_alk a * x)
        (nd_add_extensive Qcplus Qcmult (Qc_zerob x) (s_totals a) x (s_totals s))
        (nd_add_intensive Qcplus Qcmult (s_gamma a) f1 f2 (s_gamma s))
        (add_isotopes (s_iso a) f2 x (s_iso s))
        (add_species (s_species a) f1 f2 (s_species s)).

(** cxxSolution::Multiply_isotopes, Solution.cxx 1574-1585 *)
Definition multiply_isotopes (x : Qc) (l : nmap iso) : nmap iso :=
  map (fun p => (p.1, Iso (i_total p.2 * x) (i_ratio p.2) (i_unc p.2) (i_uncdef p.2))) l.

(** cxxSolution::multiply, Solution.cxx 1486-1502 *)
Definition sol_multiply (x : Qc) (s : sol) : sol :=
  if Qc_zerob x || Qeq_bool (this x) 1 then s
  else Sol (s_tc s) (s_ph s) (s_pe s) (s_mu s) (s_ah2o s) (s_dens s) (s_visc s) (s_visc0 s) (s_patm s)
           (s_h s * x) (s_o s * x) (s_cb s * x) (s_mw s * x) (s_vol s * x) (s_alk s * x)
           (nd_multiply Qcmult x (s_totals s)) (s_gamma s) (multiply_isotopes x (s_iso s)) (s_species s).

(** ** cxxMix: a map from solution number to fraction, in increasing order of number *)
Notation mixmap := (list (Z * Qc)).

(** cxxMix::Add, cxxMix.h 26-36 *)
Fixpoint mix_add (n : Z) (f : Qc) (l : mixmap) : mixmap :=
  match l with
  | [] => [(n, f)]
  | (m, g) :: l' =>
      if (n =? m)%Z then (m, g + f) :: l'
      else if (n <? m)%Z then (n, f) :: l
      else (m, g) :: mix_add n f l'
  end.
(** cxxMix::Multiply, cxxMix.h 37-44 *)
Definition mix_multiply (x : Qc) (l : mixmap) : mixmap := map (fun p => (p.1, p.2 * x)) l.

(** Adding solutions one after the other. *)
Definition mix_parts (parts : list (sol * Qc)) (s : sol) : sol :=
  fold_left (fun acc p => sol_add p.1 p.2 acc) parts s.

(** The solutions of a mixture that exist. *)
Fixpoint mix_found (solutions : gmap Z sol) (m : mixmap) : list (sol * Qc) :=
  match m with
  | [] => []
  | (n, f) :: m' =>
      match solutions !! n with
      | Some s => (s, f) :: mix_found solutions m'
      | None => mix_found solutions m'
      end
  end.

(** Mixing constructor, Solution.cxx 107-153. A number that is not defined only prints a message
    and is left out. *)
Definition sol_mix (solutions : gmap Z sol) (m : mixmap) : sol :=
  mix_parts (mix_found solutions m) sol_zero.

(** ** Update of totals *)

(** Solution.cxx 1213-1220: totals below 1e-25 are set to 0 *)
Definition tiny : Qc := Q2Qc (1 # 10000000000000000000000000).
Definition Qc_ltb (x y : Qc) : bool := negb (Qle_bool (this y) (this x)).
Definition clip_tiny (l : nmap Qc) : nmap Qc :=
  map (fun p => (p.1, if Qc_ltb p.2 tiny then 0 else p.2)) l.

(** cxxSolution::Update(h, o, charge, nd), Solution.cxx 1202-1222, with Update(nd), 1299-1385, of
    which only the totals are modelled (the activities need log10) *)
Definition sol_update (h o cb : Qc) (nd : nmap Qc) (s : sol) : sol :=
  Sol (s_tc s) (s_ph s) (s_pe s) (s_mu s) (s_ah2o s) (s_dens s) (s_visc s) (s_visc0 s) (s_patm s)
      h o cb (o / Q2Qc (555 # 10)) (s_vol s) (s_alk s)
      (clip_tiny (simplify_redox 0 Qcplus nd)) (s_gamma s) (s_iso s) (s_species s).

(** cxxSolution::Get_total, Solution.cxx 1504-1516 *)
Definition get_total (n : string) (s : sol) : Qc :=
  match nd_find n (s_totals s) with Some x => x | None => 0 end.
