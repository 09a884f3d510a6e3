(** Lemmas about solutions made from sets of concentrations. *)
From Coq Require Import String QArith Qcanon.
From stdpp Require Import prelude strings gmap.
From Verif.Base Require Import Result.
From Verif.Names Require Import Model Spec Proofs.
From Verif.Solution Require Import Model Proofs.
From Verif.Conc Require Import Model Spec Proofs.
From Verif.Utility Require Import Model Spec.
Local Open Scope Qc_scope.

Lemma molar_portion u gf y : 0 < gf -> to_molar u 1 y gf = moles_in u gf 1 1 y.
Proof.
  intros Hg. apply Qclt_ne in Hg. unfold to_molar, moles_in. destruct u.
  - assert (E : Q2Qc (1 # 1000) = / qz 1000) by done. rewrite E. unfold Qcdiv. ring.
  - ring.
  - unfold Qcdiv. ring.
Qed.

(** The values of one set *)
Definition row_of (nc n : nat) (t : list Qc) (i : nat) : list Qc :=
  map (fun k => default 0 (t !! (n * k + i)%nat)) (seq 0 nc).
Lemma values_ok nc n t i : length t = (n * nc)%nat -> (i < n)%nat ->
  values nc n t i = Ret (row_of nc n t i).
Proof.
  intros Ht Hi. apply omap_list_ret. intros k Hk%elem_of_seq. unfold vat.
  destruct (lookup_lt_is_Some_2 t (n * k + i)%nat) as [y ->]; [nia|]. done.
Qed.
Lemma row_of_lookup nc n t i k : length t = (n * nc)%nat -> (i < n)%nat -> (k < nc)%nat ->
  row_of nc n t i !! k = t !! (k * n + i)%nat.
Proof.
  intros Ht Hi Hk. unfold row_of. rewrite seq_map_lookup by done. rewrite (Nat.mul_comm n k).
  destruct (lookup_lt_is_Some_2 t (k * n + i)%nat) as [y ->]; [nia|]. done.
Qed.
Lemma row_of_length nc n t i : length (row_of nc n t i) = nc.
Proof. unfold row_of. by rewrite map_length, seq_length. Qed.

(** The amounts of one set, before H2O is divided up *)
Definition moles_of (c : cfg) (n : nat) (t : list Qc) (i : nat) : list Qc :=
  zip_with (to_molar (c_unit c) 1) (row_of (length (c_comps c)) n t i) (c_gfw c).
Lemma moles_of_length c n t i : comps_ok c -> length (moles_of c n t i) = length (c_comps c).
Proof. intros [_ H]. unfold moles_of. rewrite zip_with_length, row_of_length. lia. Qed.
Lemma moles_of_portion c n t i k x : cfg_ok c -> length t = (n * length (c_comps c))%nat -> (i < n)%nat ->
  moles_of c n t i !! k = Some x <-> portion c n t i k x.
Proof.
  intros ((H1 & H2) & Hp & _) Ht Hi. unfold moles_of. rewrite lookup_zip_with_Some.
  assert (Hk : forall g, c_gfw c !! k = Some g -> (k < length (c_comps c))%nat /\ 0 < g).
  { intros g Hg. rewrite Forall_forall in Hp. split; [rewrite <- H2; by eapply lookup_lt_Some|].
    apply Hp. by eapply elem_of_list_lookup_2. }
  split.
  - intros (y & g & -> & Hy & Hg). destruct (Hk g Hg). exists y, g.
    rewrite row_of_lookup in Hy by done. split_and!; [done..|]. by rewrite molar_portion.
  - intros (y & g & Hy & Hg & <-). destruct (Hk g Hg). exists y, g.
    rewrite row_of_lookup by done. split_and!; [|done..]. by rewrite molar_portion.
Qed.

(** What the water of a set is multiplied by *)
Definition water_factor (c : cfg) (dens : list Qc) (i : nat) (r : Qc) : Prop :=
  match c_unit c with MassFraction => dens !! i = Some r | _ => r = 1 end.

Lemma amounts_h2o_spec c dens n t i r : comps_ok c -> c_h2o c = true -> water_factor c dens i r ->
  exists w h o cb rest, moles_of c n t i = w :: h :: o :: cb :: rest /\
    length rest = length (drop 4 (c_comps c)) /\
    amounts_h2o c dens i (row_of (length (c_comps c)) n t i) =
      Ret (h + w * r * qz 2 :: o + w * r :: cb :: rest).
Proof.
  intros [H1 H2] Hh Hr. unfold fixed in H1. rewrite Hh in H1. unfold moles_of, amounts_h2o.
  pose proof (row_of_length (length (c_comps c)) n t i) as L.
  destruct (row_of (length (c_comps c)) n t i) as [|w row]; [simpl in L; lia|].
  destruct (c_gfw c) as [|g0 gfw]; [simpl in H2; lia|].
  simpl in L, H2. cbn [drop]. rewrite drop_0, to_molars_zip by lia. cbn [obind zip_with].
  assert (E : match c_unit c with
              | MolL => Ret w
              | MgL => obind (vat (g0 :: gfw) 0) (fun g0 => Ret (to_molar MgL 1 w g0))
              | MassFraction => obind (vat (g0 :: gfw) 0) (fun g0 =>
                  obind (vat dens i) (fun r => Ret (to_molar MassFraction 1 w g0 * r)))
              end = Ret (to_molar (c_unit c) 1 w g0 * r)).
  { unfold water_factor in Hr. destruct (c_unit c); cbn.
    - rewrite Hr. f_equal. ring.
    - rewrite Hr. f_equal. ring.
    - unfold vat. by rewrite Hr. }
  destruct row as [|h row]; [simpl in L; lia|]. destruct gfw as [|g1 gfw]; [simpl in *; lia|].
  destruct row as [|o row]; [simpl in L; lia|]. destruct gfw as [|g2 gfw]; [simpl in *; lia|].
  destruct row as [|cb row]; [simpl in L; lia|]. destruct gfw as [|g3 gfw]; [simpl in *; lia|].
  cbn [zip_with]. do 5 eexists. split; [done|]. split.
  { rewrite zip_with_length, drop_length. simpl in *. lia. }
  rewrite E. done.
Qed.

Lemma amounts_noh2o_spec c n t i : comps_ok c -> c_h2o c = false ->
  exists h o cb rest, moles_of c n t i = h :: o :: cb :: rest /\
    length rest = length (drop 3 (c_comps c)) /\
    amounts_noh2o c (row_of (length (c_comps c)) n t i) = Ret (h :: o :: cb :: rest).
Proof.
  intros Hc Hh. pose proof (moles_of_length c n t i Hc) as L. destruct Hc as [H1 H2]. unfold fixed in H1.
  rewrite Hh in H1. unfold amounts_noh2o.
  rewrite to_molars_zip by (rewrite row_of_length; lia). fold (moles_of c n t i).
  destruct (moles_of c n t i) as [|h [|o [|cb rest]]]; [simpl in L; lia..|].
  exists h, o, cb, rest. split_and!; [done| |done]. simpl in L. rewrite drop_length. lia.
Qed.

(** Totals of an updated solution *)
Lemma update_totals h o cb names d s : NoDup names -> Forall element_name names -> length names = length d ->
  forall n v, amount (s_totals (sol_update h o cb (name_totals names d) s)) n v <->
    exists i x, names !! i = Some n /\ d !! i = Some x /\ v = kept x x.
Proof.
  intros Hn Hf Hl n v. destruct (name_totals_spec names d Hn Hl) as [Ho He].
  assert (Hel : forall m v, (m, v) ∈ name_totals names d -> element_name m).
  { intros m w Hin. apply He in Hin as (k & y & Hk & _). rewrite Forall_forall in Hf. apply Hf.
    by eapply elem_of_list_lookup_2. }
  assert (E1 : simplify_redox 0 Qcplus (name_totals names d) = name_totals names d).
  { apply simplify_plain; [intros; ring|done|]. intros m w Hin. by apply (Hel m w). }
  assert (Hkept : forall x, (if Qc_ltb (clip0 x) tiny then 0 else clip0 x) = kept x x).
  { intros x. unfold clip0, kept. change (Q2Qc (1 # 10 ^ 25)) with tiny.
    destruct (Qc_ltb x 0) eqn:E4; [|done].
    assert (H0 : Qc_ltb x tiny = true).
    { apply Qc_ltb_true. apply Qc_ltb_true in E4. eapply Qclt_trans; [exact E4|]. by vm_compute. }
    rewrite H0. by destruct (Qc_ltb 0 tiny). }
  unfold sol_update, amount. cbn [s_totals]. rewrite E1. unfold clip_tiny. split.
  - intros H. apply elem_of_list_fmap in H as ([m w] & [= -> ->] & H). cbn [fst snd].
    apply He in H as (i & x & H1 & H2 & ->). exists i, x. split_and!; [done..|]. apply Hkept.
  - intros (i & x & H1 & H2 & ->). apply elem_of_list_fmap. exists (n, clip0 x). cbn [fst snd].
    rewrite Hkept. split; [done|]. apply He. by exists i, x.
Qed.

Lemma made_wet names h o cb rest : 0 < h -> 0 < o ->
  made names (h :: o :: cb :: rest) = Ret (sol_update h o cb (name_totals names rest) sol_new).
Proof.
  intros Hh Ho. unfold made. rewrite (proj2 (Qc_ltb_true 0 h) Hh), (proj2 (Qc_ltb_true 0 o) Ho). done.
Qed.
Lemma made_dry names h o cb rest : ~ (0 < h /\ 0 < o) -> made names (h :: o :: cb :: rest) = Ret sol_new.
Proof.
  intros H. unfold made. destruct (Qc_ltb 0 h) eqn:E1; [|done]. destruct (Qc_ltb 0 o) eqn:E2; [|done].
  apply Qc_ltb_true in E1, E2. tauto.
Qed.
Lemma made_total names h o cb rest : exists s, made names (h :: o :: cb :: rest) = Ret s.
Proof. unfold made. destruct (Qc_ltb 0 h && Qc_ltb 0 o); [|by eexists]. cbn. by eexists. Qed.

(** The vector d of one set *)
Lemma scratch c dens n t i r : comps_ok c -> length t = (n * length (c_comps c))%nat ->
  (i < n)%nat -> (c_h2o c = true -> water_factor c dens i r) ->
  exists h o cb rest,
    (if c_h2o c then amounts_h2o c dens i (row_of (length (c_comps c)) n t i)
     else amounts_noh2o c (row_of (length (c_comps c)) n t i)) = Ret (h :: o :: cb :: rest) /\
    length rest = length (drop (fixed c) (c_comps c)) /\
    drop (fixed c) (moles_of c n t i) = rest /\
    if c_h2o c then exists w h' o', moles_of c n t i = w :: h' :: o' :: cb :: rest /\
      h = h' + w * r * qz 2 /\ o = o' + w * r
    else moles_of c n t i = h :: o :: cb :: rest.
Proof.
  intros Hc Ht Hi Hr. unfold fixed. destruct (c_h2o c) eqn:Eh.
  - destruct (amounts_h2o_spec c dens n t i r Hc Eh (Hr eq_refl)) as (w & h & o & cb & rest & E & L & E2).
    do 4 eexists. split; [exact E2|]. split; [exact L|]. rewrite E. split; [done|]. by exists w, h, o.
  - destruct (amounts_noh2o_spec c n t i Hc Eh) as (h & o & cb & rest & E & L & E2).
    do 4 eexists. split; [exact E2|]. split; [exact L|]. by rewrite E.
Qed.

Lemma util_one_spec c dens tc patm t n i r : sets_ok c n tc patm t -> (i < n)%nat ->
  (c_h2o c = true -> water_factor c dens i r) ->
  exists h o cb rest s a b,
    util_one c dens tc patm t n i = Ret (with_tp a b s) /\ tc !! i = Some a /\ patm !! i = Some b /\
    made (drop (fixed c) (c_comps c)) (h :: o :: cb :: rest) = Ret s /\
    length rest = length (drop (fixed c) (c_comps c)) /\
    drop (fixed c) (moles_of c n t i) = rest /\
    if c_h2o c then exists w h' o', moles_of c n t i = w :: h' :: o' :: cb :: rest /\
      h = h' + w * r * qz 2 /\ o = o' + w * r
    else moles_of c n t i = h :: o :: cb :: rest.
Proof.
  intros (Hc & Ht & Htc & Hp) Hi Hr. pose proof Hc as (Hco & _).
  destruct (scratch c dens n t i r Hco Ht Hi Hr) as (h & o & cb & rest & E1 & L & E2 & E3).
  destruct (made_total (drop (fixed c) (c_comps c)) h o cb rest) as [s Es].
  destruct (lookup_lt_is_Some_2 tc i) as [a Ea]; [lia|]. destruct (lookup_lt_is_Some_2 patm i) as [b Eb]; [lia|].
  exists h, o, cb, rest, s, a, b. split; [|split_and!; done].
  unfold util_one. rewrite values_ok by done. cbn [obind]. rewrite E1. cbn [obind].
  fold (fixed c). rewrite Es. cbn [obind]. unfold vat. rewrite Ea. cbn [obind]. rewrite Eb. done.
Qed.

(** The loop over the sets *)
Lemma util_loop_spec c dens tc patm t n (f : nat -> sol) todo m :
  (forall i, i ∈ todo -> util_one c dens tc patm t n i = Ret (f i)) ->
  exists m', util_loop c dens tc patm t n todo m = Ret m' /\
    (forall i, i ∈ todo -> m' !! Z.of_nat (S i) = Some (f i)) /\
    (forall z, (forall i, i ∈ todo -> z <> Z.of_nat (S i)) -> m' !! z = m !! z).
Proof.
  revert m. induction todo as [|i todo IH]; intros m H.
  { exists m. split_and!; [done| |done]. by intros i ?%elem_of_nil. }
  destruct (IH (<[Z.of_nat (S i) := f i]> m)) as (m' & E & A & B).
  { intros j Hj. apply H. by right. }
  exists m'. cbn [util_loop]. rewrite H by left. cbn [obind]. split; [done|]. split.
  - intros j [-> | Hj]%elem_of_cons; [|by apply A].
    destruct (decide (i ∈ todo)) as [Hi|Hi]; [by apply A|]. rewrite B.
    + by rewrite lookup_insert.
    + intros j Hj E'. apply Hi. replace i with j by lia. done.
  - intros z Hz. rewrite B.
    + rewrite lookup_insert_ne; [done|]. intros E'. by apply (Hz i); [left|].
    + intros j Hj. apply Hz. by right.
Qed.

Lemma quotient n nc : (0 < nc)%nat -> (n * nc / nc)%nat = n.
Proof. intros H. apply Nat.div_mul. lia. Qed.

Lemma utility_spec c dens tc patm t n (r : nat -> Qc) m : sets_ok c n tc patm t ->
  (forall i, (i < n)%nat -> c_h2o c = true -> water_factor c dens i (r i)) ->
  exists m', concentrations2utility c dens tc patm t m = Ret m' /\
    (forall z, ~ (1 <= z <= Z.of_nat n)%Z -> m' !! z = m !! z) /\
    (forall i, (i < n)%nat -> exists s, m' !! Z.of_nat (S i) = Some s /\
       util_one c dens tc patm t n i = Ret s).
Proof.
  intros Hs Hr. pose proof Hs as ((Hco & _) & Ht & _).
  assert (Hnc : (0 < length (c_comps c))%nat).
  { destruct Hco as [H _]. unfold fixed in H. destruct (c_h2o c); lia. }
  unfold concentrations2utility. destruct (length (c_comps c)) as [|k] eqn:Ek; [lia|].
  rewrite decide_False by (intros E; destruct Hco as [_ H]; rewrite E in H; simpl in H; lia).
  rewrite Ht, quotient by lia.
  set (f i := match util_one c dens tc patm t n i with Ret s => s | _ => sol_new end).
  assert (Hf : forall i, (i < n)%nat -> util_one c dens tc patm t n i = Ret (f i)).
  { intros i Hi. destruct (util_one_spec c dens tc patm t n i (r i) Hs Hi (Hr i Hi))
      as (? & ? & ? & ? & ? & ? & ? & E & _). unfold f. by rewrite E. }
  destruct (util_loop_spec c dens tc patm t n f (seq 0 n) m) as (m' & E & A & B).
  { intros i Hi%elem_of_seq. apply Hf. lia. }
  exists m'. split; [done|]. split.
  - intros z Hz. apply B. intros i Hi%elem_of_seq. lia.
  - intros i Hi. exists (f i). split; [|by apply Hf]. apply A. apply elem_of_seq. lia.
Qed.
