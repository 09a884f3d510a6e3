(** Property C75: solutions of the utility instance made from sets of concentrations. *)
From Coq Require Import String QArith Qcanon.
From stdpp Require Import prelude strings gmap.
From Verif.Base Require Import Result.
From Verif.Names Require Import Model Spec Proofs.
From Verif.Solution Require Import Model Proofs.
From Verif.Conc Require Import Model Spec Proofs.
From Verif.Utility Require Import Model Spec Proofs.
Local Open Scope Qc_scope.

Lemma drop_portion c n t i k x : cfg_ok c -> length t = (n * length (c_comps c))%nat -> (i < n)%nat ->
  drop (fixed c) (moles_of c n t i) !! k = Some x <-> portion c n t i (fixed c + k) x.
Proof. intros Hc Ht Hi. rewrite lookup_drop. by apply moles_of_portion. Qed.

Lemma portion_fun c n t i k x y : portion c n t i k x -> portion c n t i k y -> x = y.
Proof. intros (a & g & H1 & H2 & <-) (b & g' & H3 & H4 & <-). congruence. Qed.

(** One solution: what the model computes, in terms of the portions. *)
Lemma util_one_portions c dens tc patm t n i r : sets_ok c n tc patm t -> (i < n)%nat ->
  (c_h2o c = true -> water_factor c dens i r) ->
  exists h o cb rest s a b,
    util_one c dens tc patm t n i = Ret (with_tp a b s) /\ tc !! i = Some a /\ patm !! i = Some b /\
    made (drop (fixed c) (c_comps c)) (h :: o :: cb :: rest) = Ret s /\
    length rest = length (drop (fixed c) (c_comps c)) /\
    (forall k x, rest !! k = Some x <-> portion c n t i (fixed c + k) x) /\
    if c_h2o c then exists w h' o', portion c n t i 0 w /\ portion c n t i 1 h' /\
      portion c n t i 2 o' /\ portion c n t i 3 cb /\ h = h' + w * r * qz 2 /\ o = o' + w * r
    else portion c n t i 0 h /\ portion c n t i 1 o /\ portion c n t i 2 cb.
Proof.
  intros Hs Hi Hr. pose proof Hs as (Hc & Ht & _).
  destruct (util_one_spec c dens tc patm t n i r Hs Hi Hr)
    as (h & o & cb & rest & s & a & b & E1 & Ea & Eb & Es & L & Er & E).
  exists h, o, cb, rest, s, a, b. split; [done|]. split; [done|]. split; [done|]. split; [done|].
  split; [done|]. split.
  { intros k x. rewrite <- Er. by apply drop_portion. }
  destruct (c_h2o c).
  - destruct E as (w & h' & o' & E & -> & ->). exists w, h', o'.
    do 4 (rewrite <- moles_of_portion by done). rewrite E. split_and!; reflexivity.
  - do 3 (rewrite <- moles_of_portion by done). rewrite E. split_and!; reflexivity.
Qed.

(** ** C75 *)

(** Every set becomes the solution of its number, with the temperature and pressure given for it and
    with the moles of a litre (mass fractions: a kilogram) of the set; other solutions of the
    instance stay. For mass fractions with H2O as a component this needs a density of 1. *)
Theorem utility_solutions c dens tc patm t n m : sets_ok c n tc patm t ->
  (c_h2o c = true -> c_unit c = MassFraction -> forall i, (i < n)%nat -> dens !! i = Some 1) ->
  exists m', concentrations2utility c dens tc patm t m = Ret m' /\
    (forall z, ~ (1 <= z <= Z.of_nat n)%Z -> m' !! z = m !! z) /\
    forall i, (i < n)%nat -> exists s, m' !! Z.of_nat (S i) = Some s /\
      tc !! i = Some (s_tc s) /\ patm !! i = Some (s_patm s) /\
      exists h o cb, water_of c n t i h o cb /\
        (0 < h -> 0 < o -> s_h s = h /\ s_o s = o /\ s_cb s = cb /\
           forall name v, amount (s_totals s) name v <->
             exists k x, (fixed c <= k)%nat /\ c_comps c !! k = Some name /\
                         portion c n t i k x /\ v = kept x x).
Proof.
  intros Hs Hd. pose proof Hs as (Hc & Ht & _).
  assert (Hr : forall i, (i < n)%nat -> c_h2o c = true -> water_factor c dens i 1).
  { intros i Hi Hh. unfold water_factor. destruct (c_unit c) eqn:Eu; [done..|]. by apply Hd. }
  destruct (utility_spec c dens tc patm t n (fun _ => 1) m Hs Hr) as (m' & E & Ho & Hin).
  exists m'. split; [done|]. split; [done|]. intros i Hi. destruct (Hin i Hi) as (s & Es & E1).
  exists s. split; [done|].
  destruct (util_one_portions c dens tc patm t n i 1 Hs Hi (Hr i Hi))
    as (h & o & cb & rest & s0 & a & b & E2 & Ea & Eb & E3 & L & Hp & W).
  rewrite E1 in E2. injection E2 as ->. split; [done|]. split; [done|].
  exists h, o, cb. split.
  { unfold water_of. destruct (c_h2o c); [|done].
    destruct W as (w & h' & o' & W1 & W2 & W3 & W4 & -> & ->). exists w, h', o'.
    split_and!; [done..|ring|ring]. }
  intros Hh Hoo. rewrite made_wet in E3 by done. injection E3 as <-.
  split; [done|]. split; [done|]. split; [done|]. intros name v.
  destruct Hc as (_ & _ & Hnd & Hnm).
  refine (iff_trans (update_totals h o cb (drop (fixed c) (c_comps c)) rest sol_new Hnd Hnm (eq_sym L) name v) _).
  split.
  - intros (k & x & H1 & H2 & ->). rewrite lookup_drop in H1. exists (fixed c + k)%nat, x.
    split; [lia|]. split; [done|]. split; [by apply Hp|done].
  - intros (k & x & Hk & H1 & H2 & ->). exists (k - fixed c)%nat, x. rewrite lookup_drop.
    replace (fixed c + (k - fixed c))%nat with k by lia. split; [done|]. split; [|done].
    apply Hp. by replace (fixed c + (k - fixed c))%nat with k by lia.
Qed.
Print Assumptions utility_solutions.

(** What the code makes of every set, density included: the water of mass fractions is multiplied by
    the density of the grid cell with the number of the set, nothing else is. *)
Theorem utility_density c dens tc patm t n m : sets_ok c n tc patm t ->
  c_h2o c = true -> c_unit c = MassFraction -> (n <= length dens)%nat ->
  exists m', concentrations2utility c dens tc patm t m = Ret m' /\
    forall i r w h o cb, (i < n)%nat -> dens !! i = Some r ->
      portion c n t i 0 w -> portion c n t i 1 h -> portion c n t i 2 o -> portion c n t i 3 cb ->
      0 < h + qz 2 * (r * w) -> 0 < o + r * w ->
      exists s, m' !! Z.of_nat (S i) = Some s /\
        s_h s = h + qz 2 * (r * w) /\ s_o s = o + r * w /\ s_cb s = cb /\
        forall k name x, (4 <= k)%nat -> c_comps c !! k = Some name -> portion c n t i k x ->
          amount (s_totals s) name (kept x x).
Proof.
  intros Hs Hh Hu Hd. pose proof Hs as (Hc & Ht & _).
  assert (Hr : forall i, (i < n)%nat -> c_h2o c = true -> water_factor c dens i (default 0 (dens !! i))).
  { intros i Hi _. unfold water_factor. rewrite Hu.
    destruct (lookup_lt_is_Some_2 dens i) as [r ->]; [lia|done]. }
  destruct (utility_spec c dens tc patm t n (fun i => default 0 (dens !! i)) m Hs Hr) as (m' & E & Ho & Hin).
  exists m'. split; [done|]. intros i r w h o cb Hi Er P0 P1 P2 P3 Wh Wo.
  destruct (Hin i Hi) as (s & Es & E1). exists s. split; [done|].
  destruct (util_one_portions c dens tc patm t n i r Hs Hi) as (h2 & o2 & cb2 & rest & s0 & a & b & E2 & Ea & Eb & E3 & L & Hp & W).
  { intros _. unfold water_factor. by rewrite Hu. }
  rewrite E1 in E2. injection E2 as ->. rewrite Hh in W.
  destruct W as (w' & h' & o' & W1 & W2 & W3 & W4 & -> & ->).
  rewrite (portion_fun _ _ _ _ _ _ _ W1 P0), (portion_fun _ _ _ _ _ _ _ W2 P1),
    (portion_fun _ _ _ _ _ _ _ W3 P2), (portion_fun _ _ _ _ _ _ _ W4 P3) in E3.
  replace (h + w * r * qz 2) with (h + qz 2 * (r * w)) in E3 by ring.
  replace (o + w * r) with (o + r * w) in E3 by ring.
  rewrite made_wet in E3 by done. injection E3 as <-. split; [done|]. split; [done|]. split; [done|].
  intros k name x Hk En Px. destruct Hc as (_ & _ & Hnd & Hnm).
  refine (proj2 (update_totals _ _ cb (drop (fixed c) (c_comps c)) rest sol_new Hnd Hnm (eq_sym L) name (kept x x)) _).
  assert (Ef : fixed c = 4%nat) by (unfold fixed; by rewrite Hh).
  exists (k - fixed c)%nat, x. rewrite lookup_drop.
  replace (fixed c + (k - fixed c))%nat with k by lia. split; [done|]. split; [|done].
  apply Hp. by replace (fixed c + (k - fixed c))%nat with k by lia.
Qed.
Print Assumptions utility_density.

(** A set without hydrogen or without oxygen becomes a kilogram of pure water, whatever else was
    given for it. *)
Lemma water_fun c n t i h o cb h' o' cb' :
  water_of c n t i h o cb -> water_of c n t i h' o' cb' -> h = h' /\ o = o'.
Proof.
  unfold water_of. destruct (c_h2o c).
  - intros (w & a & b & A0 & A1 & A2 & _ & -> & ->) (w' & a' & b' & B0 & B1 & B2 & _ & -> & ->).
    by rewrite (portion_fun _ _ _ _ _ _ _ A0 B0), (portion_fun _ _ _ _ _ _ _ A1 B1),
      (portion_fun _ _ _ _ _ _ _ A2 B2).
  - intros (A0 & A1 & _) (B0 & B1 & _). split; by eapply portion_fun.
Qed.
Theorem utility_dry c dens tc patm t n m : sets_ok c n tc patm t ->
  (c_h2o c = true -> c_unit c = MassFraction -> forall i, (i < n)%nat -> dens !! i = Some 1) ->
  exists m', concentrations2utility c dens tc patm t m = Ret m' /\
    forall i h o cb, (i < n)%nat -> water_of c n t i h o cb -> ~ (0 < h /\ 0 < o) ->
      exists s, m' !! Z.of_nat (S i) = Some s /\ tc !! i = Some (s_tc s) /\ patm !! i = Some (s_patm s) /\
        s_h s = Q2Qc (1111 # 10) /\ s_o s = Q2Qc (5555 # 100) /\ s_cb s = 0 /\ s_mw s = 1 /\
        s_totals s = [].
Proof.
  intros Hs Hd. pose proof Hs as (Hc & Ht & _).
  assert (Hr : forall i, (i < n)%nat -> c_h2o c = true -> water_factor c dens i 1).
  { intros i Hi Hh. unfold water_factor. destruct (c_unit c) eqn:Eu; [done..|]. by apply Hd. }
  destruct (utility_spec c dens tc patm t n (fun _ => 1) m Hs Hr) as (m' & E & Ho & Hin).
  exists m'. split; [done|]. intros i h o cb Hi Hw Hdry. destruct (Hin i Hi) as (s & Es & E1).
  exists s. split; [done|].
  destruct (util_one_portions c dens tc patm t n i 1 Hs Hi (Hr i Hi))
    as (h' & o' & cb' & rest & s0 & a & b & E2 & Ea & Eb & E3 & L & Hp & W).
  rewrite E1 in E2. injection E2 as ->.
  assert (Hw' : water_of c n t i h' o' cb').
  { unfold water_of. destruct (c_h2o c); [|done].
    destruct W as (w & h2 & o2 & W1 & W2 & W3 & W4 & -> & ->). exists w, h2, o2.
    split_and!; [done..|ring|ring]. }
  destruct (water_fun _ _ _ _ _ _ _ _ _ _ Hw Hw') as [-> ->].
  rewrite made_dry in E3 by done. injection E3 as <-. done.
Qed.
Print Assumptions utility_dry.

(** Concentrations that describe a solution (C10 says that GetConcentrations reports such) give a
    solution with the same composition, scaled to a litre or a kilogram. *)
Definition scale (u : sunit) (v dens : Qc) : Qc := match u with MassFraction => v * dens | _ => v end.
Lemma moles_scaled u gf v dens y x : 0 < v -> 0 < dens -> moles_in u gf dens v y = x ->
  moles_in u gf 1 1 y = x / scale u v dens.
Proof.
  intros Hv Hd <-. apply Qclt_ne in Hv, Hd. unfold moles_in, scale. destruct u.
  - unfold Qcdiv. rewrite <- !(Qcmult_assoc (y * / qz 1000 * / gf)). rewrite Qcmult_inv_r by done. ring.
  - unfold Qcdiv. rewrite <- (Qcmult_assoc y), Qcmult_inv_r by done. ring.
  - assert (Hz : v * dens <> 0) by (intros [?|?]%Qcmult_integral; auto).
    replace (y * dens * v * qz 1000 / gf) with (y * qz 1000 / gf * (v * dens)) by (unfold Qcdiv; ring).
    unfold Qcdiv at 2. rewrite <- (Qcmult_assoc (y * qz 1000 / gf)), Qcmult_inv_r by done.
    unfold Qcdiv. ring.
Qed.

Theorem utility_of_reported c dens tc patm t n m : sets_ok c n tc patm t ->
  (c_h2o c = true -> c_unit c = MassFraction -> forall i, (i < n)%nat -> dens !! i = Some 1) ->
  exists m', concentrations2utility c dens tc patm t m = Ret m' /\
    forall i s v d, (i < n)%nat -> 0 < v -> 0 < d -> 0 < s_h s -> 0 < s_o s ->
      (forall k gf x, c_gfw c !! k = Some gf -> component_moles c s k = Some x ->
         exists y, t !! (k * n + i)%nat = Some y /\ moles_in (c_unit c) gf d v y = x) ->
      exists s', m' !! Z.of_nat (S i) = Some s' /\
        s_h s' = s_h s / scale (c_unit c) v d /\ s_o s' = s_o s / scale (c_unit c) v d /\
        s_cb s' = s_cb s / scale (c_unit c) v d /\
        forall k name, (fixed c <= k)%nat -> c_comps c !! k = Some name ->
          let x := element_sum 0 Qcplus (s_totals s) name / scale (c_unit c) v d in
          amount (s_totals s') name (kept x x).
Proof.
  intros Hs Hd. pose proof Hs as (Hc & Ht & _).
  destruct (utility_solutions c dens tc patm t n m Hs Hd) as (m' & E & _ & Hin).
  exists m'. split; [done|]. intros i s v d Hi Hv Hd' Hh Ho Hrep.
  destruct (Hin i Hi) as (s' & Es & _ & _ & h & o & cb & W & Hwet). exists s'. split; [done|].
  assert (Hp : forall k x, (k < length (c_comps c))%nat -> component_moles c s k = Some x ->
     portion c n t i k (x / scale (c_unit c) v d)).
  { intros k x Hk Hx. destruct Hc as ([_ L] & _). destruct (lookup_lt_is_Some_2 (c_gfw c) k) as [gf Hg]; [lia|].
    destruct (Hrep k gf x Hg Hx) as (y & Hy & Ey). exists y, gf. split_and!; [done..|]. by apply moles_scaled. }
  assert (Hsc : 0 < scale (c_unit c) v d).
  { unfold scale. destruct (c_unit c); [done..|]. by apply Qcmult_pos. }
  assert (Hpos : forall x, 0 < x -> 0 < x / scale (c_unit c) v d).
  { intros x Hx. unfold Qcdiv. apply Qcmult_pos; [done|]. apply Qcnot_le_lt. intros Hle.
    assert (H1 : / scale (c_unit c) v d * scale (c_unit c) v d <= 0 * scale (c_unit c) v d).
    { apply Qcmult_le_compat_r; [done|]. by apply Qclt_le_weak. }
    rewrite Qcmult_comm, Qcmult_inv_r in H1 by (by apply Qclt_ne).
    revert H1. rewrite Qcmult_0_l. by vm_compute. }
  assert (Hw : h = s_h s / scale (c_unit c) v d /\ o = s_o s / scale (c_unit c) v d /\
               cb = s_cb s / scale (c_unit c) v d).
  { pose proof Hc as ([Hl _] & _). unfold water_of in W. unfold component_moles in Hp. unfold fixed in Hl.
    destruct (c_h2o c).
    - destruct W as (w & h' & o' & P0 & P1 & P2 & P3 & -> & ->).
      pose proof (portion_fun _ _ _ _ _ _ _ P0 (Hp 0%nat _ ltac:(lia) eq_refl)) as ->.
      pose proof (portion_fun _ _ _ _ _ _ _ P1 (Hp 1%nat _ ltac:(lia) eq_refl)) as ->.
      pose proof (portion_fun _ _ _ _ _ _ _ P2 (Hp 2%nat _ ltac:(lia) eq_refl)) as ->.
      pose proof (portion_fun _ _ _ _ _ _ _ P3 (Hp 3%nat _ ltac:(lia) eq_refl)) as ->.
      unfold Qcdiv. split_and!; [ring|ring|done].
    - destruct W as (P0 & P1 & P2).
      pose proof (portion_fun _ _ _ _ _ _ _ P0 (Hp 0%nat _ ltac:(lia) eq_refl)) as ->.
      pose proof (portion_fun _ _ _ _ _ _ _ P1 (Hp 1%nat _ ltac:(lia) eq_refl)) as ->.
      pose proof (portion_fun _ _ _ _ _ _ _ P2 (Hp 2%nat _ ltac:(lia) eq_refl)) as ->. done. }
  destruct Hw as (-> & -> & ->).
  destruct Hwet as (-> & -> & -> & Ht'); [by apply Hpos..|]. split; [done|]. split; [done|]. split; [done|].
  intros k name Hk En x. apply Ht'. exists k, x. split; [done|]. split; [done|]. split; [|done].
  apply Hp; [by eapply lookup_lt_Some|]. unfold component_moles.
  unfold fixed in Hk. destruct (c_h2o c).
  - destruct k as [|[|[|[|k]]]]; [lia..|]. by rewrite En.
  - destruct k as [|[|[|k]]]; [lia..|]. by rewrite En.
Qed.
Print Assumptions utility_of_reported.

(** Before FindComponents there are no components, and the number of sets is a division by zero; the
    exception meant for this case is not reached. *)
Theorem utility_before_find_refuted :
  exists c dens tc patm t m, c_comps c = [] /\ c_gfw c = [] /\ c_h2o c = true /\
    concentrations2utility c dens tc patm t m = UB.
Proof. by exists (Cfg MolL true [] [] false), [], [], [], [], ∅. Qed.
Print Assumptions utility_before_find_refuted.

(** ** Examples *)
Definition demo_names : list string := ["H"%string; "O"%string; "Charge"%string; "Ca"%string; "Cl"%string].
Definition demo_gfw : list Qc := [1; qz 16; 1; qz 40; qz 35].
(** Two sets in mol/L, without H2O as a component; the second has a negative amount of calcium. *)
Definition demo_cfg : cfg := Cfg MolL false demo_names demo_gfw false.
Definition demo_t : list Qc := [qz 110; qz 112; qz 55; qz 56; 0; 0; 1; - 1; qz 2; qz 3].
Lemma demo_names_ok : NoDup (drop 3 demo_names) /\ Forall element_name (drop 3 demo_names).
Proof.
  split; [apply (bool_decide_unpack _); by vm_compute|].
  apply Forall_forall. intros x Hx. repeat (apply elem_of_cons in Hx as [-> | Hx]); [..|by apply elem_of_nil in Hx];
  (split; [repeat split|]; split; [intros H; apply H; by vm_compute|]; by split_and!).
Qed.
Example demo_sets : sets_ok demo_cfg 2 [qz 25; qz 30] [1; qz 2] demo_t /\
  water_of demo_cfg 2 demo_t 1 (qz 112) (qz 56) 0 /\ 0 < qz 112 /\ 0 < qz 56.
Proof.
  split.
  - split; [|by split_and!; vm_compute; try lia]. split; [split; [vm_compute; lia|done]|].
    split; [|apply demo_names_ok]. repeat constructor.
  - split; [|by split]. unfold water_of. cbn [c_h2o demo_cfg].
    split_and!; do 2 eexists; (split; [reflexivity|]; split; [reflexivity|]); apply Qc_is_canon; by vm_compute.
Qed.
Example demo_dry : sets_ok demo_cfg 2 [qz 25; qz 30] [1; qz 2] (<[0%nat := 0]> demo_t) /\
  water_of demo_cfg 2 (<[0%nat := 0]> demo_t) 0 0 (qz 55) 0 /\ ~ (0 < (0 : Qc) /\ 0 < qz 55).
Proof.
  split.
  - split; [|by split_and!; vm_compute; try lia]. apply demo_sets.
  - split; [|by intros [? _]]. unfold water_of. cbn [c_h2o demo_cfg].
    split_and!; do 2 eexists; (split; [reflexivity|]; split; [reflexivity|]); apply Qc_is_canon; by vm_compute.
Qed.
Definition demo_sol : sol :=
  Sol (qz 25) (qz 7) (qz 4) 0 1 1 1 1 1 (qz 220) (qz 110) 0 (qz 2) (qz 2) 0
    [("Ca"%string, qz 2); ("Cl"%string, qz 4)] [] [] ∅.
Example demo_reported :
  forall k gf x, c_gfw demo_cfg !! k = Some gf -> component_moles demo_cfg demo_sol k = Some x ->
    exists y, demo_t !! (k * 2 + 0)%nat = Some y /\ moles_in (c_unit demo_cfg) gf 1 (qz 2) y = x.
Proof.
  intros k gf x Hg Hx. do 5 (destruct k as [|k]; [injection Hx as <-; eexists; (split; [reflexivity|]);
    apply Qc_is_canon; by vm_compute|]). done.
Qed.
Example demo_run : exists m', concentrations2utility demo_cfg [] [qz 25; qz 30] [1; qz 2] demo_t ∅ = Ret m' /\
  option_map s_tc (m' !! 2%Z) = Some (qz 30) /\
  option_map (fun s => nd_find "Cl"%string (s_totals s)) (m' !! 2%Z) = Some (Some (qz 3)) /\
  option_map (fun s => nd_find "Ca"%string (s_totals s)) (m' !! 2%Z) = Some (Some 0) /\ m' !! 3%Z = None.
Proof.
  eexists. split; [reflexivity|]. split_and!; reflexivity.
Qed.

(** The solute of a litre of density 1.2 with H2O as a component: in mol/L the ratio of calcium to
    hydrogen is kept, given as mass fractions of the same solution it is not. *)
Definition h2o_cfg (u : sunit) : cfg := Cfg u true ("H2O"%string :: demo_names) (qz 18 :: demo_gfw) false.
(** Mass fractions 0.9 of water and 0.04 of calcium *)
Definition fractions : list Qc := [Q2Qc (9 # 10); 0; 0; 0; Q2Qc (1 # 25); 0].
Theorem utility_density_refuted :
  exists dens tc patm m', sets_ok (h2o_cfg MassFraction) 1 tc patm fractions /\ dens = [Q2Qc (6 # 5)] /\
    concentrations2utility (h2o_cfg MassFraction) dens tc patm fractions ∅ = Ret m' /\
    exists s h o cb, m' !! 1%Z = Some s /\ water_of (h2o_cfg MassFraction) 1 fractions 0 h o cb /\
      0 < h /\ 0 < o /\ s_h s <> h /\ amount (s_totals s) "Ca"%string 1 /\
      portion (h2o_cfg MassFraction) 1 fractions 0 4 1.
Proof.
  exists [Q2Qc (6 # 5)], [qz 25], [1]. eexists. split.
  { split; [|by split_and!; vm_compute; try lia]. split; [split; [vm_compute; lia|done]|].
    split; [repeat constructor|apply demo_names_ok]. }
  split; [done|]. split; [reflexivity|]. eexists. exists (qz 100), (qz 50), 0. split; [reflexivity|]. split.
  { unfold water_of. cbn [c_h2o h2o_cfg]. exists (qz 50), 0, 0.
    split_and!; try (do 2 eexists; (split; [reflexivity|]; split; [reflexivity|]));
      apply Qc_is_canon; by vm_compute. }
  split; [done|]. split; [done|]. split.
  { intros E. apply (f_equal this) in E. revert E. vm_compute. discriminate. }
  split.
  { apply elem_of_list_lookup. exists 0%nat. vm_compute. reflexivity. }
  do 2 eexists. split; [reflexivity|]. split; [reflexivity|]. apply Qc_is_canon; by vm_compute.
Qed.
Print Assumptions utility_density_refuted.

(** A vector of temperatures shorter than the number of sets is read past its end; so is density_root
    when there are more sets than grid cells. *)
Theorem utility_short_refuted :
  (exists c dens tc patm t n m, cfg_ok c /\ length t = (n * length (c_comps c))%nat /\
     length tc = 1%nat /\ n = 2%nat /\ concentrations2utility c dens tc patm t m = UB) /\
  (exists c dens tc patm t n m, sets_ok c n tc patm t /\ length dens = 1%nat /\ n = 2%nat /\
     concentrations2utility c dens tc patm t m = UB).
Proof.
  split.
  - exists demo_cfg, [], [qz 25], [1; 1], demo_t, 2%nat, ∅.
    split; [apply demo_sets|]. by split_and!.
  - exists (h2o_cfg MassFraction), [1], [qz 25; qz 25], [1; 1], (fractions ++ fractions), 2%nat, ∅.
    split; [|by split_and!]. split; [|by split_and!; vm_compute; try lia].
    split; [split; [vm_compute; lia|done]|]. split; [repeat constructor|apply demo_names_ok].
Qed.
Print Assumptions utility_short_refuted.

(** The C function hands on the given arrays. *)
Theorem c_utility_same c dens tc patm t n tc' patm' t' m : sets_ok c n tc patm t ->
  length tc = n -> length patm = n ->
  rm_concentrations2utility c dens (tc ++ tc') (patm ++ patm') (t ++ t') n m =
  concentrations2utility c dens tc patm t m.
Proof.
  intros (_ & Ht & _ & _) H1 H2. unfold rm_concentrations2utility. rewrite !app_length.
  rewrite decide_True by lia. rewrite <- Ht. by rewrite (take_app_alt tc), (take_app_alt patm), (take_app_alt t).
Qed.
Print Assumptions c_utility_same.
