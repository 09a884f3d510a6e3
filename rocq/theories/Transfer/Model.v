(** Moving cells between processes: the encoding of reactants as integers, doubles and a dictionary
    of words (src/IPhreeqcPhast/IPhreeqc/phreeqcpp: Serialize and Deserialize of every class, and
    Serializer.cxx), and the exchange in RebalanceLoad (src/PhreeqcRM.cpp).

    Doubles are values of an abstract type [D]: the code only moves them, except that one map has
    doubles as keys, compared with [dcmp]; [d1] is the constant 1.0. Integers are unbounded: all
    numbers are taken to fit into an int. *)
From Coq Require Import String.
From stdpp Require Import prelude strings pretty gmap.
From Verif.Base Require Import Result.
From Verif.Names Require Import Model.
From Verif.Core Require Import Move.

(** std::map with keys in the order of [cmp]: [l\[k\] = v] *)
Fixpoint kset {K V} (cmp : K -> K -> comparison) (k : K) (v : V) (l : list (K * V)) : list (K * V) :=
  match l with
  | [] => [(k, v)]
  | (n, w) :: l' =>
      match cmp k n with
      | Eq => (n, v) :: l'
      | Lt => (k, v) :: l
      | Gt => (n, w) :: kset cmp k v l'
      end
  end.

Section Transfer.
Context {D : Type} (dcmp : D -> D -> comparison) (d1 : D).

(** ** Writing: what is appended to the integers and the doubles, and the dictionary afterwards *)
Definition writer : Type := dictionary -> dictionary * (list Z * list D).
Definition w_nil : writer := fun d => (d, ([], [])).
Definition w_then (a b : writer) : writer := fun d =>
  let r := a d in let q := b r.1 in (q.1, (r.2.1 ++ q.2.1, r.2.2 ++ q.2.2)).
Definition w_seq (l : list writer) : writer := foldr w_then w_nil l.
(** ints.push_back(z), doubles.push_back(x), ints.push_back(dictionary.Find(s)) *)
Definition w_int (z : Z) : writer := fun d => (d, ([z], [])).
Definition w_dbl (x : D) : writer := fun d => (d, ([], [x])).
Definition w_word (s : string) : writer := fun d => let r := d_find s d in (r.2, ([Z.of_nat r.1], [])).
Definition w_bool (b : bool) : writer := w_int (if b then 1 else 0)%Z.
(** the size, then the elements *)
Definition w_list {A} (f : A -> writer) (l : list A) : writer :=
  w_then (w_int (Z.of_nat (length l))) (w_seq (map f l)).

(** ** Reading at [ints\[ii++\]] and [doubles\[dd++\]]: a stream is what lies ahead of the two
    positions; reading past an end is undefined *)
Definition stream : Type := list Z * list D.
Definition reader (A : Type) : Type := list string -> stream -> outcome (A * stream).
Definition r_ret {A} (a : A) : reader A := fun _ s => Ret (a, s).
Definition r_bind {A B} (m : reader A) (k : A -> reader B) : reader B := fun ws s =>
  match m ws s with Ret (a, s') => k a ws s' | Throw => Throw | UB => UB end.
Definition r_int : reader Z := fun _ s => match s.1 with z :: zs => Ret (z, (zs, s.2)) | [] => UB end.
Definition r_dbl : reader D := fun _ s => match s.2 with x :: xs => Ret (x, (s.1, xs)) | [] => UB end.
(** dictionary.GetWords()[ints[ii++]] *)
Definition word_at (ws : list string) (z : Z) : outcome string :=
  if (z <? 0)%Z then UB else match ws !! Z.to_nat z with Some w => Ret w | None => UB end.
Definition r_word : reader string :=
  r_bind r_int (fun z ws s => obind (word_at ws z) (fun w => Ret (w, s))).
Definition r_bool : reader bool := r_bind r_int (fun z => r_ret (negb (z =? 0)%Z)).
(** for (i = 0; i < n; i++) *)
Fixpoint r_times {A} (n : nat) (step : A -> reader A) (a : A) : reader A :=
  match n with
  | 0 => r_ret a
  | S n' => r_bind (step a) (r_times n' step)
  end.
Definition r_count {A} (step : A -> reader A) (a : A) : reader A :=
  r_bind r_int (fun z => r_times (Z.to_nat z) step a).
(** clear(), then push_back of [n] elements *)
Definition r_list {A} (r : reader A) : reader (list A) :=
  r_count (fun l => r_bind r (fun x => r_ret (l ++ [x]))) [].

Local Notation "x <<- m ; k" := (r_bind m (fun x => k)) (at level 60, m at level 59, right associativity).

(** cxxNameDouble, NameDouble.cxx 510-521 and 522-538: an empty name is skipped together with its
    double, which is then read for the next *)
Definition w_names (l : nmap D) : writer := w_list (fun p => w_then (w_word p.1) (w_dbl p.2)) l.
Definition r_names : reader (nmap D) :=
  r_count (fun l => w <<- r_word;
             if decide (w = EmptyString) then r_ret l else x <<- r_dbl; r_ret (nd_set w x l)) [].

(** std::map<int, double> *)
Definition w_imap (l : list (Z * D)) : writer := w_list (fun p => w_then (w_int p.1) (w_dbl p.2)) l.
Definition r_imap : reader (list (Z * D)) :=
  r_count (fun l => k <<- r_int; x <<- r_dbl; r_ret (kset Z.compare k x l)) [].

(** ** Exchange: ExchComp.h, Exchange.h, NumKeyword.h *)
Record exch_comp := ExchComp {
  ec_formula : string; ec_totals : nmap D; ec_la : D; ec_cb : D; ec_phase : string; ec_prop : D;
  ec_rate : string; ec_z : D
}.
(** ExchComp.cxx 358-387 *)
Definition w_exch_comp (x : exch_comp) : writer := w_seq [
  w_word (ec_formula x); w_names (ec_totals x); w_dbl (ec_la x); w_dbl (ec_cb x); w_word (ec_phase x);
  w_dbl (ec_prop x); w_word (ec_rate x); w_dbl (ec_z x)].
Definition r_exch_comp : reader exch_comp :=
  formula <<- r_word; totals <<- r_names; la <<- r_dbl; cb <<- r_dbl; phase <<- r_word;
  prop <<- r_dbl; rate <<- r_word; z <<- r_dbl;
  r_ret (ExchComp formula totals la cb phase prop rate z).

Record exchange := Exchange {
  ex_n : Z; ex_end : Z; ex_text : string; ex_comps : list exch_comp; ex_pitzer : bool; ex_new : bool;
  ex_equil : bool; ex_soln : Z; ex_totals : nmap D
}.
(** Exchange.cxx 412-457 *)
Definition w_exchange (x : exchange) : writer := w_seq [
  w_int (ex_n x); w_list w_exch_comp (ex_comps x); w_bool (ex_pitzer x); w_bool (ex_new x);
  w_bool (ex_equil x); w_int (ex_soln x); w_names (ex_totals x)].
Definition r_exchange : reader exchange :=
  n <<- r_int; comps <<- r_list r_exch_comp; pitzer <<- r_bool; new <<- r_bool; equil <<- r_bool;
  soln <<- r_int; totals <<- r_names;
  r_ret (Exchange n n " " comps pitzer new equil soln totals).

(** ** Gas: GasComp.h, GasPhase.h *)
Record gas_comp := GasComp {
  gc_name : string; gc_moles : D; gc_pread : D; gc_init : D; gc_p : D; gc_phi : D; gc_f : D
}.
(** GasComp.cxx 230-253 *)
Definition w_gas_comp (x : gas_comp) : writer := w_seq [
  w_word (gc_name x); w_dbl (gc_moles x); w_dbl (gc_pread x); w_dbl (gc_init x); w_dbl (gc_p x);
  w_dbl (gc_phi x); w_dbl (gc_f x)].
Definition r_gas_comp : reader gas_comp :=
  name <<- r_word; moles <<- r_dbl; pread <<- r_dbl; init <<- r_dbl; p <<- r_dbl; phi <<- r_dbl;
  f <<- r_dbl; r_ret (GasComp name moles pread init p phi f).

Inductive gp_type := GP_PRESSURE | GP_VOLUME | GP_UNKNOWN.
Record gas_phase := GasPhase {
  gp_n : Z; gp_end : Z; gp_text : string; gp_kind : gp_type; gp_total_p : D; gp_vol : D;
  gp_comps : list gas_comp; gp_new : bool; gp_equil : bool; gp_soln : Z; gp_temp : D; gp_moles : D;
  gp_vm : D; gp_pr : bool; gp_totals : nmap D
}.
(** GasPhase.cxx 590-642 *)
Definition w_gas_phase (x : gas_phase) : writer := w_seq [
  w_int (gp_n x); w_int (match gp_kind x with GP_PRESSURE => 0 | _ => 1 end)%Z;
  w_dbl (gp_total_p x); w_dbl (gp_vol x); w_list w_gas_comp (gp_comps x); w_bool (gp_new x);
  w_bool (gp_equil x); w_int (gp_soln x); w_dbl (gp_temp x); w_dbl (gp_moles x); w_dbl (gp_vm x);
  w_bool (gp_pr x); w_names (gp_totals x)].
Definition r_gas_phase : reader gas_phase :=
  n <<- r_int; kind <<- r_int; total_p <<- r_dbl; vol <<- r_dbl; comps <<- r_list r_gas_comp;
  new <<- r_bool; equil <<- r_bool; soln <<- r_int; temp <<- r_dbl; moles <<- r_dbl; vm <<- r_dbl;
  pr <<- r_bool; totals <<- r_names;
  r_ret (GasPhase n n " " (if (kind =? 0)%Z then GP_PRESSURE else GP_VOLUME) total_p vol comps new
           equil soln temp moles vm pr totals).

(** ** Kinetics: KineticsComp.h, cxxKinetics.h *)
Record kin_comp := KinComp {
  kc_rate : string; kc_coef : nmap D; kc_tol : D; kc_m : D; kc_m0 : D; kc_d : list D;
  kc_c : list string; kc_moles : D; kc_init : D; kc_reaction : nmap D
}.
(** KineticsComp.cxx 273-309; c_params ("Not used") is not sent *)
Definition w_kin_comp (x : kin_comp) : writer := w_seq [
  w_word (kc_rate x); w_names (kc_coef x); w_dbl (kc_tol x); w_dbl (kc_m x); w_dbl (kc_m0 x);
  w_list w_dbl (kc_d x); w_dbl (kc_moles x); w_dbl (kc_init x); w_names (kc_reaction x)].
Definition r_kin_comp : reader kin_comp :=
  rate <<- r_word; coef <<- r_names; tol <<- r_dbl; m <<- r_dbl; m0 <<- r_dbl; d <<- r_list r_dbl;
  moles <<- r_dbl; init <<- r_dbl; reaction <<- r_names;
  r_ret (KinComp rate coef tol m m0 d [] moles init reaction).

Record kinetics := Kinetics {
  ki_n : Z; ki_end : Z; ki_text : string; ki_comps : list kin_comp; ki_steps : list D; ki_count : Z;
  ki_equal : bool; ki_divide : D; ki_rk : Z; ki_bad : Z; ki_cvode : bool; ki_cv_steps : Z;
  ki_cv_order : Z; ki_totals : nmap D
}.
(** cxxKinetics.cxx 543-603 *)
Definition w_kinetics (x : kinetics) : writer := w_seq [
  w_int (ki_n x); w_list w_kin_comp (ki_comps x); w_list w_dbl (ki_steps x); w_int (ki_count x);
  w_bool (ki_equal x); w_dbl (ki_divide x); w_int (ki_rk x); w_int (ki_bad x); w_bool (ki_cvode x);
  w_int (ki_cv_steps x); w_int (ki_cv_order x); w_names (ki_totals x)].
Definition r_kinetics : reader kinetics :=
  n <<- r_int; comps <<- r_list r_kin_comp; steps <<- r_list r_dbl; count <<- r_int;
  equal <<- r_bool; divide <<- r_dbl; rk <<- r_int; bad <<- r_int; cvode <<- r_bool;
  cv_steps <<- r_int; cv_order <<- r_int; totals <<- r_names;
  r_ret (Kinetics n n " " comps steps count equal divide rk bad cvode cv_steps cv_order totals).

(** ** Equilibrium phases: PPassemblageComp.h, PPassemblage.h *)
Record pp_comp := PPComp {
  pc_name : string; pc_add : string; pc_si : D; pc_si_org : D; pc_moles : D; pc_delta : D; pc_init : D;
  pc_force : bool; pc_dissolve : bool; pc_precip : bool; pc_totals : nmap D
}.
(** PPassemblageComp.cxx 394-427 *)
Definition w_pp_comp (x : pp_comp) : writer := w_seq [
  w_word (pc_name x); w_word (pc_add x); w_dbl (pc_si x); w_dbl (pc_si_org x); w_dbl (pc_moles x);
  w_dbl (pc_delta x); w_dbl (pc_init x); w_bool (pc_force x); w_bool (pc_dissolve x);
  w_bool (pc_precip x); w_names (pc_totals x)].
Definition r_pp_comp : reader pp_comp :=
  name <<- r_word; add <<- r_word; si <<- r_dbl; si_org <<- r_dbl; moles <<- r_dbl; delta <<- r_dbl;
  init <<- r_dbl; force <<- r_bool; dissolve <<- r_bool; precip <<- r_bool; totals <<- r_names;
  r_ret (PPComp name add si si_org moles delta init force dissolve precip totals).

Record pp_assemblage := PP {
  pp_n : Z; pp_end : Z; pp_text : string; pp_new : bool; pp_comps : nmap pp_comp; pp_elts : nmap D;
  pp_totals : nmap D
}.
(** A map from names to components is sent without its keys; the receiver takes the names of the
    components. *)
Definition w_named {A} (f : A -> writer) (l : nmap A) : writer := w_list (fun p => f p.2) l.
Definition r_named {A} (r : reader A) (name : A -> string) : reader (nmap A) :=
  r_count (fun l => x <<- r; r_ret (nd_set (name x) x l)) [].
(** PPassemblage.cxx 327-368 *)
Definition w_pp (x : pp_assemblage) : writer := w_seq [
  w_int (pp_n x); w_bool (pp_new x); w_named w_pp_comp (pp_comps x); w_names (pp_elts x);
  w_names (pp_totals x)].
Definition r_pp : reader pp_assemblage :=
  n <<- r_int; new <<- r_bool; comps <<- r_named r_pp_comp pc_name; elts <<- r_names; totals <<- r_names;
  r_ret (PP n n " " new comps elts totals).

(** ** Solid solutions: SScomp.h, SS.h, SSassemblage.h *)
Record ss_comp := SSComp {
  sc_name : string; sc_moles : D; sc_initial : D; sc_init : D; sc_delta : D; sc_x : D; sc_lambda : D;
  sc_logx : D; sc_dn : D; sc_dnc : D; sc_dnb : D
}.
(** SScomp.cxx 246-283 *)
Definition w_ss_comp (x : ss_comp) : writer := w_seq [
  w_word (sc_name x); w_dbl (sc_moles x); w_dbl (sc_initial x); w_dbl (sc_init x); w_dbl (sc_delta x);
  w_dbl (sc_x x); w_dbl (sc_lambda x); w_dbl (sc_logx x); w_dbl (sc_dn x); w_dbl (sc_dnc x);
  w_dbl (sc_dnb x)].
Definition r_ss_comp : reader ss_comp :=
  name <<- r_word; moles <<- r_dbl; initial <<- r_dbl; init <<- r_dbl; delta <<- r_dbl; x <<- r_dbl;
  lambda <<- r_dbl; logx <<- r_dbl; dn <<- r_dbl; dnc <<- r_dbl; dnb <<- r_dbl;
  r_ret (SSComp name moles initial init delta x lambda logx dn dnc dnb).

Record solid := Solid {
  ss_name : string; ss_ag0 : D; ss_ag1 : D; ss_comps : list ss_comp; ss_a0 : D; ss_a1 : D;
  ss_misc : bool; ss_spin : bool; ss_tk : D; ss_xb1 : D; ss_xb2 : D; ss_case : Z; ss_p : list D;
  ss_total : D; ss_dn : D; ss_in : bool; ss_totals : nmap D
}.
(** SS.cxx 512-588 *)
Definition w_solid (x : solid) : writer := w_seq [
  w_word (ss_name x); w_dbl (ss_ag0 x); w_dbl (ss_ag1 x); w_list w_ss_comp (ss_comps x);
  w_dbl (ss_a0 x); w_dbl (ss_a1 x); w_bool (ss_misc x); w_bool (ss_spin x); w_dbl (ss_tk x);
  w_dbl (ss_xb1 x); w_dbl (ss_xb2 x); w_int (ss_case x); w_list w_dbl (ss_p x); w_dbl (ss_total x);
  w_dbl (ss_dn x); w_bool (ss_in x); w_names (ss_totals x)].
Definition r_solid : reader solid :=
  name <<- r_word; ag0 <<- r_dbl; ag1 <<- r_dbl; comps <<- r_list r_ss_comp; a0 <<- r_dbl; a1 <<- r_dbl;
  misc <<- r_bool; spin <<- r_bool; tk <<- r_dbl; xb1 <<- r_dbl; xb2 <<- r_dbl; case <<- r_int;
  p <<- r_list r_dbl; total <<- r_dbl; dn <<- r_dbl; inn <<- r_bool; totals <<- r_names;
  r_ret (Solid name ag0 ag1 comps a0 a1 misc spin tk xb1 xb2 case p total dn inn totals).

Record ss_assemblage := SSA {
  sa_n : Z; sa_end : Z; sa_text : string; sa_list : nmap solid; sa_new : bool; sa_totals : nmap D
}.
(** SSassemblage.cxx 267-309 *)
Definition w_ssa (x : ss_assemblage) : writer := w_seq [
  w_int (sa_n x); w_named w_solid (sa_list x); w_bool (sa_new x); w_names (sa_totals x)].
Definition r_ssa : reader ss_assemblage :=
  n <<- r_int; list <<- r_named r_solid ss_name; new <<- r_bool; totals <<- r_names;
  r_ret (SSA n n " " list new totals).

(** ** Surfaces: SurfaceComp.h, SurfaceCharge.h, Surface.h *)
Record surf_comp := SurfComp {
  uc_formula : string; uc_z : D; uc_moles : D; uc_totals : nmap D; uc_la : D; uc_charge : string;
  uc_cb : D; uc_phase : string; uc_prop : D; uc_rate : string; uc_dw : D; uc_master : string
}.
(** SurfaceComp.cxx 459-491 *)
Definition w_surf_comp (x : surf_comp) : writer := w_seq [
  w_word (uc_formula x); w_dbl (uc_z x); w_dbl (uc_moles x); w_names (uc_totals x); w_dbl (uc_la x);
  w_word (uc_charge x); w_dbl (uc_cb x); w_word (uc_phase x); w_dbl (uc_prop x); w_word (uc_rate x);
  w_dbl (uc_dw x); w_word (uc_master x)].
Definition r_surf_comp : reader surf_comp :=
  formula <<- r_word; z <<- r_dbl; moles <<- r_dbl; totals <<- r_names; la <<- r_dbl; charge <<- r_word;
  cb <<- r_dbl; phase <<- r_word; prop <<- r_dbl; rate <<- r_word; dw <<- r_dbl; master <<- r_word;
  r_ret (SurfComp formula z moles totals la charge cb phase prop rate dw master).

Record surf_dl := SurfDL { dl_g : D; dl_dg : D; dl_psi : D }.
(** SurfaceCharge.cxx 578-596 *)
Definition w_surf_dl (x : surf_dl) : writer := w_seq [w_dbl (dl_g x); w_dbl (dl_dg x); w_dbl (dl_psi x)].
Definition r_surf_dl : reader surf_dl := g <<- r_dbl; dg <<- r_dbl; psi <<- r_dbl; r_ret (SurfDL g dg psi).

Record surf_charge := SurfCharge {
  uh_name : string; uh_area : D; uh_grams : D; uh_cb : D; uh_water : D; uh_visc : D; uh_free : D;
  uh_la : D; uh_cap0 : D; uh_cap1 : D; uh_dl : nmap D; uh_s0 : D; uh_s1 : D; uh_s2 : D; uh_sd : D;
  uh_g : list (D * surf_dl); uh_mcd : list (D * D); uh_species : list (Z * D)
}.
(** SurfaceCharge.cxx 495-577; z_gMCD_map ([uh_mcd]) is not sent *)
Definition w_surf_charge (x : surf_charge) : writer := w_seq [
  w_word (uh_name x); w_dbl (uh_area x); w_dbl (uh_grams x); w_dbl (uh_cb x); w_dbl (uh_water x);
  w_dbl (uh_la x); w_dbl (uh_cap0 x); w_dbl (uh_cap1 x); w_names (uh_dl x); w_dbl (uh_s0 x);
  w_dbl (uh_s1 x); w_dbl (uh_s2 x); w_dbl (uh_sd x); w_dbl (uh_free x); w_dbl (uh_visc x);
  w_list (fun p => w_then (w_dbl p.1) (w_surf_dl p.2)) (uh_g x); w_imap (uh_species x)].
Definition r_surf_charge : reader surf_charge :=
  name <<- r_word; area <<- r_dbl; grams <<- r_dbl; cb <<- r_dbl; water <<- r_dbl; la <<- r_dbl;
  cap0 <<- r_dbl; cap1 <<- r_dbl; dl <<- r_names; s0 <<- r_dbl; s1 <<- r_dbl; s2 <<- r_dbl; sd <<- r_dbl;
  free <<- r_dbl; visc <<- r_dbl;
  g <<- r_count (fun l => k <<- r_dbl; x <<- r_surf_dl; r_ret (kset dcmp k x l)) [];
  species <<- r_imap;
  r_ret (SurfCharge name area grams cb water visc free la cap0 cap1 dl s0 s1 s2 sd g [] species).

Record surface := Surface {
  su_n : Z; su_end : Z; su_text : string; su_comps : list surf_comp; su_charges : list surf_charge;
  su_new : bool; su_tidied : bool; su_type : Z; su_dl : Z; su_units : Z; su_only : bool;
  su_thick : D; su_debye : D; su_visc : D; su_calc : bool; su_limit : D; su_correct : bool;
  su_trans : bool; su_totals : nmap D; su_equil : bool; su_soln : Z
}.
(** Surface.cxx 728-815; calc_DDL_viscosity ([su_calc]) is not sent; the default constructor (36-51)
    sets it to false *)
Definition w_surface (x : surface) : writer := w_seq [
  w_int (su_n x); w_list w_surf_comp (su_comps x); w_list w_surf_charge (su_charges x);
  w_bool (su_new x); w_bool (su_tidied x); w_int (su_type x); w_int (su_dl x); w_int (su_units x);
  w_bool (su_only x); w_dbl (su_thick x); w_dbl (su_debye x); w_dbl (su_visc x); w_dbl (su_limit x);
  w_bool (su_correct x); w_bool (su_trans x); w_names (su_totals x); w_bool (su_equil x);
  w_int (su_soln x)].
Definition r_surface : reader surface :=
  n <<- r_int; comps <<- r_list r_surf_comp; charges <<- r_list r_surf_charge; new <<- r_bool;
  tidied <<- r_bool; type <<- r_int; dl <<- r_int; units <<- r_int; only <<- r_bool; thick <<- r_dbl;
  debye <<- r_dbl; visc <<- r_dbl; limit <<- r_dbl; correct <<- r_bool; trans <<- r_bool;
  totals <<- r_names; equil <<- r_bool; soln <<- r_int;
  r_ret (Surface n n " " comps charges new tidied type dl units only thick debye visc false limit
           correct trans totals equil soln).

(** ** Solutions: SolutionIsotope.h, Solution.h *)
Record isotope := Isotope {
  is_num : D; is_elt : string; is_name : string; is_total : D; is_ratio : D; is_unc : D; is_def : bool;
  is_x : D; is_coef : D
}.
(** SolutionIsotope.cxx 296-322 *)
Definition w_isotope (x : isotope) : writer := w_seq [
  w_dbl (is_num x); w_word (is_elt x); w_word (is_name x); w_dbl (is_total x); w_dbl (is_ratio x);
  w_dbl (is_unc x); w_bool (is_def x); w_dbl (is_x x); w_dbl (is_coef x)].
Definition r_isotope : reader isotope :=
  num <<- r_dbl; elt <<- r_word; name <<- r_word; total <<- r_dbl; ratio <<- r_dbl; unc <<- r_dbl;
  def <<- r_bool; x <<- r_dbl; coef <<- r_dbl; r_ret (Isotope num elt name total ratio unc def x coef).

Record solution := Solution {
  so_n : Z; so_end : Z; so_text : string; so_new : bool; so_patm : D; so_pot : D; so_tc : D; so_ph : D;
  so_pe : D; so_mu : D; so_ah2o : D; so_h : D; so_o : D; so_cb : D; so_water : D; so_dens : D;
  so_visc : D; so_visc0 : D; so_vol : D; so_alk : D; so_totals : nmap D; so_act : nmap D;
  so_gamma : nmap D; so_iso : nmap isotope; so_initial : bool; so_species : list (Z * D);
  so_loggam : list (Z * D); so_logmol : list (Z * D)
}.
(** Solution.cxx 1587-1671 and 1673-1755; viscos_0 and initial_data ([so_initial]: is there any) are
    not sent; the default constructor (30-57) sets them to 1.0 and to null *)
Definition w_solution (x : solution) : writer := w_seq [
  w_int (so_n x); w_bool (so_new x); w_dbl (so_patm x); w_dbl (so_pot x); w_dbl (so_tc x);
  w_dbl (so_ph x); w_dbl (so_pe x); w_dbl (so_mu x); w_dbl (so_ah2o x); w_dbl (so_h x); w_dbl (so_o x);
  w_dbl (so_cb x); w_dbl (so_water x); w_dbl (so_dens x); w_dbl (so_visc x); w_dbl (so_vol x);
  w_dbl (so_alk x); w_names (so_totals x); w_names (so_act x); w_names (so_gamma x);
  w_list (fun p => w_then (w_word p.1) (w_isotope p.2)) (so_iso x); w_imap (so_species x);
  w_imap (so_loggam x); w_imap (so_logmol x)].
Definition r_solution : reader solution :=
  n <<- r_int; new <<- r_bool; patm <<- r_dbl; pot <<- r_dbl; tc <<- r_dbl; ph <<- r_dbl; pe <<- r_dbl;
  mu <<- r_dbl; ah2o <<- r_dbl; h <<- r_dbl; o <<- r_dbl; cb <<- r_dbl; water <<- r_dbl; dens <<- r_dbl;
  visc <<- r_dbl; vol <<- r_dbl; alk <<- r_dbl; totals <<- r_names; act <<- r_names; gamma <<- r_names;
  iso <<- r_count (fun l => k <<- r_word; x <<- r_isotope; r_ret (nd_set k x l)) [];
  species <<- r_imap; loggam <<- r_imap; logmol <<- r_imap;
  r_ret (Solution n n "  " new patm pot tc ph pe mu ah2o h o cb water dens visc d1 vol alk totals act
           gamma iso false species loggam logmol).

(** ** REACTION_TEMPERATURE and REACTION_PRESSURE: Temperature.h, Pressure.h, alike *)
Record steps := Steps {
  st_n : Z; st_end : Z; st_text : string; st_list : list D; st_count : Z; st_equal : bool
}.
(** Temperature.cxx 384-422, Pressure.cxx 376-416 *)
Definition w_steps (x : steps) : writer := w_seq [
  w_int (st_n x); w_list w_dbl (st_list x); w_int (st_count x); w_bool (st_equal x)].
Definition r_steps : reader steps :=
  n <<- r_int; list <<- r_list r_dbl; count <<- r_int; equal <<- r_bool; r_ret (Steps n n " " list count equal).

(** ** MIX and REACTION, which do not travel: the members of cxxMix.h 53 and Reaction.h 48-54 *)
Record mixture := Mixture { mi_n : Z; mi_end : Z; mi_text : string; mi_comps : list (Z * D) }.
Record reaction := Reaction {
  rx_n : Z; rx_end : Z; rx_text : string; rx_units : string; rx_list : nmap D; rx_elts : nmap D;
  rx_steps : list D; rx_count : Z; rx_equal : bool
}.

(** ** The reactants of a process *)

(** The maps of class Phreeqc; [ph_mix] and [ph_react] do not take part. *)
Record reactants := Reactants {
  ph_sol : gmap Z solution; ph_ex : gmap Z exchange; ph_gas : gmap Z gas_phase; ph_kin : gmap Z kinetics;
  ph_pp : gmap Z pp_assemblage; ph_ss : gmap Z ss_assemblage; ph_surf : gmap Z surface;
  ph_temp : gmap Z steps; ph_press : gmap Z steps; ph_mix : gmap Z mixture; ph_react : gmap Z reaction
}.

(** Serializer.h 16-27 *)
Definition w_opt {A} (tag : Z) (f : A -> writer) (x : option A) : writer :=
  match x with Some x => w_then (w_int tag) (f x) | None => w_nil end.
(** Serializer::Serialize, Serializer.cxx 28-112, for one cell *)
Definition w_cell (t p : bool) (ph : reactants) (i : Z) : writer := w_seq [
  w_opt 0 w_solution (ph_sol ph !! i); w_opt 1 w_exchange (ph_ex ph !! i);
  w_opt 2 w_gas_phase (ph_gas ph !! i); w_opt 3 w_kinetics (ph_kin ph !! i);
  w_opt 4 w_pp (ph_pp ph !! i); w_opt 5 w_ssa (ph_ss ph !! i); w_opt 6 w_surface (ph_surf ph !! i);
  if t then w_opt 7 w_steps (ph_temp ph !! i) else w_nil;
  if p then w_opt 8 w_steps (ph_press ph !! i) else w_nil].

(** Serializer::Deserialize, 114-205: one entity *)
Definition r_entity (ph : reactants) : reader reactants :=
  let 'Reactants sol ex gas kin pp ss surf temp press mix react := ph in
  tag <<- r_int;
  match tag with
  | 0 => x <<- r_solution; r_ret (Reactants (<[so_n x := x]> sol) ex gas kin pp ss surf temp press mix react)
  | 1 => x <<- r_exchange; r_ret (Reactants sol (<[ex_n x := x]> ex) gas kin pp ss surf temp press mix react)
  | 2 => x <<- r_gas_phase; r_ret (Reactants sol ex (<[gp_n x := x]> gas) kin pp ss surf temp press mix react)
  | 3 => x <<- r_kinetics; r_ret (Reactants sol ex gas (<[ki_n x := x]> kin) pp ss surf temp press mix react)
  | 4 => x <<- r_pp; r_ret (Reactants sol ex gas kin (<[pp_n x := x]> pp) ss surf temp press mix react)
  | 5 => x <<- r_ssa; r_ret (Reactants sol ex gas kin pp (<[sa_n x := x]> ss) surf temp press mix react)
  | 6 => x <<- r_surface; r_ret (Reactants sol ex gas kin pp ss (<[su_n x := x]> surf) temp press mix react)
  | 7 => x <<- r_steps; r_ret (Reactants sol ex gas kin pp ss surf (<[st_n x := x]> temp) press mix react)
  | 8 => x <<- r_steps; r_ret (Reactants sol ex gas kin pp ss surf temp (<[st_n x := x]> press) mix react)
  | _ => fun _ _ => Throw   (* exit(4) *)
  end%Z.
(** ... and the loop: [fuel] bounds the number of entities *)
Fixpoint r_entities (fuel : nat) (ph : reactants) (ws : list string) (s : stream) : outcome reactants :=
  match fuel with
  | 0 => Ret ph
  | S fuel' =>
      match s.1 with
      | [] => Ret ph
      | _ :: _ => match r_entity ph ws s with
                  | Ret (ph', s') => r_entities fuel' ph' ws s'
                  | Throw => Throw
                  | UB => UB
                  end
      end
  end.

(** ** One exchange of RebalanceLoad, PhreeqcRM.cpp 7939-8000 (and 8923-8984), compiled
    with USE_MPI and SERIALIZE: the sender encodes the
    cells, the text of the dictionary, the integers and the doubles travel, the receiver decodes *)
Definition encode (ph : reactants) (ks : list Z) : dictionary * stream :=
  w_seq (map (w_cell false false ph) ks) empty_dict.
Definition decode (text : string) (s : stream) (ph : reactants) : outcome reactants :=
  r_entities (length s.1) ph (d_words (dict_of_text text)) s.
(** "DELETE; -cell" for the cells (8008-8031) removes every reactant of the cells at the sender *)
Definition drop_cells {A} (ks : list Z) (m : gmap Z A) : gmap Z A := foldr delete m ks.
Definition delete_cells (ks : list Z) (ph : reactants) : reactants :=
  let 'Reactants sol ex gas kin pp ss surf temp press mix react := ph in
  Reactants (drop_cells ks sol) (drop_cells ks ex) (drop_cells ks gas) (drop_cells ks kin)
    (drop_cells ks pp) (drop_cells ks ss) (drop_cells ks surf) (drop_cells ks temp)
    (drop_cells ks press) (drop_cells ks mix) (drop_cells ks react).
Definition send_cells (ks : list Z) (from into : reactants) : outcome (reactants * reactants) :=
  let r := encode from ks in
  obind (decode (d_text r.1) r.2 into) (fun into' => Ret (delete_cells ks from, into')).

(** ** All exchanges of RebalanceLoad, PhreeqcRM.cpp 7904-8061 (and 8882-9046) *)

(** The loop over the cells (7906-7933) collects, by the text "old#new", the two processes and the
    cells to be moved between them. [pretty] prints a number in decimal. *)
Definition tp_key (o n : nat) : string := (pretty o +:+ "#" +:+ pretty n)%string.
Fixpoint plan_loop (es es' : list Z) (ks : list Z) (old nnew : nat) (tp : nmap (nat * nat * list Z))
    : outcome (nmap (nat * nat * list Z)) :=
  match ks with
  | [] => Ret tp
  | k :: r =>
      match advance k (drop old es) old, advance k (drop nnew es') nnew with
      | Some o, Some n =>
          if decide (o = n) then plan_loop es es' r o n tp
          else
            let e := default (o, n, []) (nd_find (tp_key o n) tp) in
            plan_loop es es' r o n (nd_set (tp_key o n) (e.1, e.2 ++ [k]) tp)
      | _, _ => UB
      end
  end.
(** 7935-8061: every process walks through the pairs in the order of their texts; here one pair after
    the other. TransferCellsUZ is left out (partition_uz_solids switched off); [Verif.UzMove.Model] has it. *)
Fixpoint send_all (tp : nmap (nat * nat * list Z)) (ws : list reactants) : outcome (list reactants) :=
  match tp with
  | [] => Ret ws
  | (_, (o, n, ks)) :: tp' =>
      match ws !! o, ws !! n with
      | Some wo, Some wn =>
          obind (send_cells ks wo wn) (fun r => send_all tp' (<[n := r.2]> (<[o := r.1]> ws)))
      | _, _ => UB
      end
  end.
Definition rebalance_mpi (count : Z) (es es' : list Z) (ws : list reactants) : outcome (list reactants) :=
  obind (plan_loop es es' (cells_upto count) 0 0 []) (fun tp => send_all tp ws).
End Transfer.
