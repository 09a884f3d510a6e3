(** Properties C09 to C14: concentrations of grid cells and contents of chemistry cells. *)
From Coq Require Import String QArith Qcanon.
From stdpp Require Import prelude strings gmap.
From Verif.Base Require Import Result.
From Verif.Names Require Import Model Spec Proofs.
From Verif.Solution Require Import Model Proofs.
From Verif.Conc Require Import Model Spec Proofs.
Local Open Scope Qc_scope.
Local Open Scope string_scope.

Lemma moles_from u v dens x gf : 0 < v -> 0 < dens -> 0 < gf ->
  moles_in u gf dens v (from_moles u v dens x gf) = x.
Proof.
  intros Hv Hd Hg. apply Qclt_ne in Hv, Hd, Hg. assert (Hk : qz 1000 <> 0) by done.
  unfold moles_in, from_moles. revert Hk. generalize (qz 1000). intros k Hk. destruct u; field; auto.
Qed.
Lemma moles_to u v dens x gf : 0 < gf -> to_molar u dens x gf * v = moles_in u gf dens v x.
Proof.
  intros Hg. apply Qclt_ne in Hg. unfold to_molar, moles_in. destruct u.
  - assert (E : Q2Qc (1 # 1000) = / qz 1000) by done. rewrite E. unfold Qcdiv. ring.
  - done.
  - unfold Qcdiv. ring.
Qed.
Lemma from_to u v dens x gf : 0 < v -> 0 < dens -> 0 < gf ->
  from_moles u v dens (moles_in u gf dens v x) gf = x.
Proof.
  intros Hv Hd Hg. apply Qclt_ne in Hv, Hd, Hg. assert (Hk : qz 1000 <> 0) by done.
  unfold moles_in, from_moles. revert Hk. generalize (qz 1000). intros k Hk. destruct u; field; auto.
Qed.

Lemma get_total_sum n s : wf_totals s -> n <> "H" -> n <> "O" -> n <> "Charge" ->
  get_total n (simplified s) = element_sum 0 Qcplus (s_totals s) n.
Proof.
  intros [Ho Hw] H1 H2 H3. unfold get_total, simplified. cbn [s_totals].
  destruct (nd_find n (simplify_redox 0 Qcplus (s_totals s))) as [y|] eqn:E.
  - apply nd_find_some in E; [|by apply simplify_ordered]. apply simplify_elem in E; [|done..].
    by destruct E as (_ & _ & _ & _ & ->).
  - assert (Hno : amounts_of (s_totals s) n = []).
    { destruct (amounts_of (s_totals s) n) as [|v vs] eqn:Ea; [done|]. exfalso.
      assert (Hex : exists m w, (m, w) ∈ s_totals s /\ element m = n).
      { clear -Ea. induction (s_totals s) as [|[m w] l IH]; [done|]. simpl in Ea.
        destruct (decide (element m = n)).
        - exists m, w. split; [left|done].
        - destruct (IH Ea) as (m' & w' & ? & ?). exists m', w'. split; [by right|done]. }
      assert (Hin : (n, element_sum 0 Qcplus (s_totals s) n) ∈ simplify_redox 0 Qcplus (s_totals s)).
      { apply simplify_elem; [done..|]. split_and!; done. }
      apply nd_find_some in Hin; [|by apply simplify_ordered]. congruence. }
    unfold element_sum. by rewrite Hno.
Qed.

Lemma drop_lookup_map {A B} (f : A -> B) n l k : map f (drop n l) !! k = option_map f (l !! (n + k)%nat).
Proof. rewrite list_lookup_fmap, lookup_drop. done. Qed.

Lemma amounts_component c s k x : cfg_ok c -> wf_totals s ->
  component_moles c s k = Some x -> amounts c s !! k = Some x.
Proof.
  intros (_ & _ & _ & Hn) Hw. unfold component_moles, amounts, fixed in *.
  assert (He : forall i n, (fixed c <= i)%nat -> c_comps c !! i = Some n ->
     get_total n (simplified s) = element_sum 0 Qcplus (s_totals s) n).
  { intros i n Hi E. rewrite Forall_forall in Hn. destruct (Hn n) as (_ & _ & ? & ? & ?).
    - apply elem_of_list_lookup. exists (i - fixed c)%nat. unfold fixed in *. rewrite lookup_drop.
      rewrite <- E. f_equal. lia.
    - by apply get_total_sum. }
  unfold fixed in He. destruct (c_h2o c).
  - destruct k as [|[|[|[|k]]]]; [by intros [= <-]..|]. intros E.
    refine (eq_trans (drop_lookup_map _ _ _ _) _). change (4 + k)%nat with (S (S (S (S k)))).
    destruct (c_comps c !! S (S (S (S k)))) as [n|] eqn:En; [|done].
    cbn [option_map] in *. rewrite (He (S (S (S (S k)))) n); [done|lia|done].
  - destruct k as [|[|[|k]]]; [by intros [= <-]..|]. intros E.
    refine (eq_trans (drop_lookup_map _ _ _ _) _). change (3 + k)%nat with (S (S (S k))).
    destruct (c_comps c !! S (S (S k))) as [n|] eqn:En; [|done].
    cbn [option_map] in *. rewrite (He (S (S (S k))) n); [done|lia|done].
Qed.

Lemma used_vol_dens c g j gc b s v dens : g_back g !! j = Some (gc :: b) -> used c g gc s v dens -> 0 < v ->
  vol_dens c g (gc :: b) s = Ret (v, dens).
Proof.
  intros Hb Hu Hv. unfold used in Hu. unfold vol_dens. destruct (c_calc c).
  - by destruct Hu as [-> ->].
  - destruct Hu as (por & sat & rv & E1 & E2 & E3 & Ev & E4). unfold vat. cbn.
    rewrite E1, E2, E3, E4. cbn. replace (sat * por * rv) with v by (rewrite Ev; ring).
    by rewrite (proj2 (Qc_ltb_true 0 v) Hv).
Qed.

(** ** C14: where values are *)

(** GetConcentrations: the value of component [k] in grid cell [gc] is at k*nxyz+gc and is the
    concentration of that component in the chemistry cell [gc] belongs to. *)
Theorem get_layout c g m old :
  grid_ok g -> cfg_ok c -> length m = length (g_back g) -> Forall is_Some m ->
  exists out, get_concentrations c g m old = Ret out /\ length out = (g_n g * length (c_comps c))%nat /\
    forall j gc0 gc s k gf v dens x,
      rep g j gc0 -> covers g j gc -> m !! j = Some (Some s) -> wf_totals s ->
      used c g gc0 s v dens -> 0 < v -> 0 < dens ->
      c_gfw c !! k = Some gf -> component_moles c s k = Some x ->
      exists y, out !! (k * g_n g + gc)%nat = Some y /\ moles_in (c_unit c) gf dens v y = x.
Proof.
  intros Hg Hc Hl Hm. pose proof Hc as (Hco & Hgf & _).
  destruct (get_spec c g m old Hg Hco Hm Hl) as (out & E & L & S). exists out. split_and!; [done..|].
  intros j gc0 gc s k gf v dens x [b Hb] (b' & Hb' & Hin) Hs Hw Hu Hv Hd Hk Hx.
  rewrite Hb in Hb'. injection Hb' as <-.
  assert (Hkl : (k < length (c_comps c))%nat) by (destruct Hco as [_ <-]; by eapply lookup_lt_Some).
  assert (Hgc : (gc < g_n g)%nat).
  { destruct (back_facts g j _ Hg Hb) as [_ Hf]. rewrite Forall_forall in Hf. by apply Hf. }
  destruct (S k gc Hkl Hgc) as [A _]. destruct (A j (gc0 :: b) s Hb Hin Hs) as (d & Hd1 & _ & Hd2).
  unfold row_of in Hd1. rewrite (used_vol_dens c g j gc0 b s v dens Hb Hu Hv) in Hd1. cbn [obind fst snd] in Hd1.
  destruct (cell_out_spec c v dens s Hco Hgf) as (d' & E1 & _ & E2). rewrite Hd1 in E1. injection E1 as <-.
  exists (from_moles (c_unit c) v dens x gf). rewrite (Nat.mul_comm k), Hd2.
  split; [apply E2; [by apply amounts_component|done]|].
  apply moles_from; [done..|]. rewrite Forall_forall in Hgf. apply Hgf. by eapply elem_of_list_lookup_2.
Qed.
Print Assumptions get_layout.

(** SetConcentrations: what a chemistry cell holds afterwards depends only on the values at
    k*nxyz+gc for its representative [gc] (C13), whatever the other positions hold. *)
Theorem set_reads c g t t' m j gc :
  grid_ok g -> cfg_ok c -> length m = length (g_back g) ->
  (g_n g * length (c_comps c) <= length t)%nat -> (g_n g * length (c_comps c) <= length t')%nat ->
  rep g j gc -> agree_at (g_n g) (length (c_comps c)) gc t t' ->
  exists m1 m2, set_concentrations c g t m = Ret m1 /\ set_concentrations c g t' m = Ret m2 /\
    m1 !! j = m2 !! j.
Proof.
  intros Hg (Hc & _) Hl Ht Ht' Hr Ha.
  destruct (set_total c g t m Hg Hc Ht Hl) as (m1 & E1 & _ & S1).
  destruct (set_total c g t' m Hg Hc Ht' Hl) as (m2 & E2 & _ & S2).
  exists m1, m2. split_and!; [done..|].
  assert (Hj : (j < length m)%nat) by (rewrite Hl; destruct Hr as [b Hb]; by eapply lookup_lt_Some).
  destruct (lookup_lt_is_Some_2 _ _ Hj) as [s Hs].
  destruct (S1 j gc s Hr Hs) as (s1 & -> & C1). destruct (S2 j gc s Hr Hs) as (s2 & -> & C2).
  assert (E : row_at c g t gc = row_at c g t' gc).
  { unfold row_at. apply map_ext_in. intros k Hk. apply in_seq in Hk. by rewrite Ha by lia. }
  rewrite E in C1. rewrite C1 in C2. by injection C2 as <-.
Qed.
Print Assumptions set_reads.

Lemma row_moles_lookup c dens vol row k x gf : Forall (fun g => 0 < g) (c_gfw c) ->
  row !! k = Some x -> c_gfw c !! k = Some gf ->
  row_moles c dens vol row !! k = Some (moles_in (c_unit c) gf dens vol x).
Proof.
  intros Hgf Hx Hk. unfold row_moles. rewrite lookup_zip_with, Hx. simpl. rewrite Hk. simpl. f_equal.
  apply moles_to. rewrite Forall_forall in Hgf. apply Hgf. by eapply elem_of_list_lookup_2.
Qed.
Lemma row_at_lookup c g t gc k x : (k < length (c_comps c))%nat -> t !! (k * g_n g + gc)%nat = Some x ->
  row_at c g t gc !! k = Some x.
Proof. intros Hk Hx. unfold row_at. rewrite seq_map_lookup by done. by rewrite Hx. Qed.

Lemma updated_total' h o cb names d s i n x :
  NoDup names -> Forall element_name names -> length names = length d ->
  names !! i = Some n -> d !! i = Some x ->
  element_sum 0 Qcplus (s_totals (sol_update h o cb (name_totals names d) s)) n = kept x x.
Proof.
  intros Hn Hf Hl Hi Hx. rewrite <- (updated_total h o cb names d s i n x) by done. symmetry.
  assert (Hel : element_name n) by (rewrite Forall_forall in Hf; apply Hf; by eapply elem_of_list_lookup_2).
  destruct Hel as (_ & _ & ? & ? & ?). apply get_total_sum; [|done..].
  destruct (name_totals_spec names d Hn Hl) as [Ho He].
  assert (E1 : simplify_redox 0 Qcplus (name_totals names d) = name_totals names d).
  { apply simplify_plain; [intros; ring|done|]. intros m v Hin. apply He in Hin as (k & y & Hk & _).
    rewrite Forall_forall in Hf. apply Hf. by eapply elem_of_list_lookup_2. }
  split.
  - unfold sol_update. cbn [s_totals]. rewrite E1. by apply clip_tiny_ordered.
  - unfold sol_update. cbn [s_totals]. rewrite E1. intros m v Hin. apply clip_tiny_elem in Hin as [w Hin].
    apply He in Hin as (k & y & Hk & _). rewrite Forall_forall in Hf.
    destruct (Hf m) as (P1 & P2 & _); [by eapply elem_of_list_lookup_2|].
    assert (Hee : element m = m) by (destruct (decide (element m = m)); [done|by destruct P2]).
    unfold wf_name. rewrite Hee. by split; [|left].
Qed.

(** SetConcentrations: the amounts a cell holds afterwards. Amounts below 1e-25 moles, negative ones
    included, are replaced by zero; hydrogen, oxygen and charge are taken as they are. *)
Theorem set_stores c g t m j gc s por sat rv dens :
  grid_ok g -> cfg_ok c -> length m = length (g_back g) ->
  (g_n g * length (c_comps c) <= length t)%nat ->
  rep g j gc -> m !! j = Some (Some s) ->
  g_por g !! gc = Some por -> g_sat g !! gc = Some sat -> g_rv g !! gc = Some rv -> g_dens g !! gc = Some dens ->
  0 < sat ->
  exists m' s', set_concentrations c g t m = Ret m' /\ length m' = length m /\
    m' !! j = Some (Some s') /\ wf_totals s' /\
    let set k x := exists y gf, t !! (k * g_n g + gc)%nat = Some y /\ c_gfw c !! k = Some gf /\
                               moles_in (c_unit c) gf dens (por * sat * rv) y = x in
    (forall k n x, (fixed c <= k)%nat -> c_comps c !! k = Some n -> set k x ->
       element_sum 0 Qcplus (s_totals s') n = kept x x) /\
    (c_h2o c = false -> set 0%nat (s_h s') /\ set 1%nat (s_o s') /\ set 2%nat (s_cb s')) /\
    (c_h2o c = true -> set 3%nat (s_cb s') /\
       exists w h o, set 0%nat w /\ set 1%nat h /\ set 2%nat o /\
                     s_h s' = h + qz 2 * w /\ s_o s' = o + w) /\
    s_mw s' = s_o s' / Q2Qc (555 # 10).
Proof.
  intros Hg Hcfg Hl Ht Hr Hs E1 E2 E3 E4 Hsat. pose proof Hcfg as (Hc & Hgf & Hnd & Hel).
  destruct (set_total c g t m Hg Hc Ht Hl) as (m' & E & L & S).
  destruct (S j gc (Some s) Hr Hs) as (s1 & Hm' & C).
  destruct (cell_in_spec c g j gc t s por sat rv dens) as (s' & C' & D); [done..|].
  rewrite C in C'. injection C' as ->. exists m', s'. split; [done|]. split; [done|]. split; [done|].
  destruct (rep_props g j gc Hg Hr) as (Hgc & _).
  assert (Hrow : forall k, (k < length (c_comps c))%nat -> exists y gf, t !! (k * g_n g + gc)%nat = Some y /\
     c_gfw c !! k = Some gf /\
     row_moles c dens (por * sat * rv) (row_at c g t gc) !! k = Some (moles_in (c_unit c) gf dens (por * sat * rv) y)).
  { intros k Hk. destruct (lookup_lt_is_Some_2 t (k * g_n g + gc)) as [y Hy]; [nia|].
    destruct (lookup_lt_is_Some_2 (c_gfw c) k) as [gf Hgk]; [by destruct Hc as [_ ->]|].
    exists y, gf. split_and!; [done..|]. apply row_moles_lookup; [done| |done]. by apply row_at_lookup. }
  assert (Lr : length (row_at c g t gc) = length (c_comps c)) by (unfold row_at; by rewrite map_length, seq_length).
  assert (Hwf : forall h o cb rest, length rest = length (drop (fixed c) (c_comps c)) ->
     wf_totals (sol_update h o cb (name_totals (drop (fixed c) (c_comps c)) rest) s)).
  { intros h o cb rest Lrest. destruct (name_totals_spec _ rest Hnd (eq_sym Lrest)) as [Ho He].
    assert (Q1 : simplify_redox 0 Qcplus (name_totals (drop (fixed c) (c_comps c)) rest)
                 = name_totals (drop (fixed c) (c_comps c)) rest).
    { apply simplify_plain; [intros; ring|done|]. intros n v Hin. apply He in Hin as (k & y & Hk & _).
      rewrite Forall_forall in Hel. apply Hel. by eapply elem_of_list_lookup_2. }
    split; unfold sol_update; cbn [s_totals]; rewrite Q1; [by apply clip_tiny_ordered|].
    intros n v Hin. apply clip_tiny_elem in Hin as [w Hin].
    apply He in Hin as (k & y & Hk & _). rewrite Forall_forall in Hel.
    destruct (Hel n) as (P1 & P2 & _); [by eapply elem_of_list_lookup_2|].
    assert (Hee : element n = n) by (destruct (decide (element n = n)); [done|by destruct P2]).
    unfold wf_name. rewrite Hee. by split; [|left]. }
  assert (Hfx : (fixed c <= length (c_comps c))%nat) by by destruct Hc.
  destruct (c_h2o c) eqn:Eh.
  - destruct (in_h2o_spec c dens por sat rv (row_at c g t gc) s Hc Eh Lr) as (w & h & o & cb & rest & R & Lrest & D').
    rewrite D in D'. injection D' as ->. unfold fixed in *. rewrite Eh in *. split; [by apply Hwf|]. cbn zeta.
    rewrite R in Hrow. split_and!; [|done| |done].
    + intros k n x Hk Hn (y & gf & Hy & Hg' & <-).
      destruct (Hrow k) as (y' & gf' & Hy' & Hgf' & Hm); [by eapply lookup_lt_Some|].
      rewrite Hy in Hy'. injection Hy' as <-. rewrite Hg' in Hgf'. injection Hgf' as <-.
      do 4 (destruct k as [|k]; [lia|]).
      eapply (updated_total' _ _ _ _ _ _ k); [done..| |exact Hm]. rewrite lookup_drop. exact Hn.
    + intros _. cbn [s_h s_o s_cb sol_update]. 
      destruct (Hrow 0%nat) as (y0 & f0 & T0 & F0 & M0); [lia|].
      destruct (Hrow 1%nat) as (y1 & f1 & T1 & F1 & M1); [lia|].
      destruct (Hrow 2%nat) as (y2 & f2 & T2 & F2 & M2); [lia|].
      destruct (Hrow 3%nat) as (y3 & f3 & T3 & F3 & M3); [lia|].
      injection M0 as ->. injection M1 as ->. injection M2 as ->. injection M3 as ->.
      split; [by exists y3, f3|]. do 3 eexists. split_and!; [by exists y0, f0|by exists y1, f1|by exists y2, f2|done..].
  - destruct (in_noh2o_spec c dens por sat rv (row_at c g t gc) s Hc Eh Lr) as (h & o & cb & rest & R & Lrest & D').
    rewrite D in D'. injection D' as ->. unfold fixed in *. rewrite Eh in *. split; [by apply Hwf|]. cbn zeta.
    rewrite R in Hrow. split_and!; [| |done|done].
    + intros k n x Hk Hn (y & gf & Hy & Hg' & <-).
      destruct (Hrow k) as (y' & gf' & Hy' & Hgf' & Hm); [by eapply lookup_lt_Some|].
      rewrite Hy in Hy'. injection Hy' as <-. rewrite Hg' in Hgf'. injection Hgf' as <-.
      do 3 (destruct k as [|k]; [lia|]).
      eapply (updated_total' _ _ _ _ _ _ k); [done..| |exact Hm]. rewrite lookup_drop. exact Hn.
    + intros _. cbn [s_h s_o s_cb sol_update]. 
      destruct (Hrow 0%nat) as (y0 & f0 & T0 & F0 & M0); [lia|].
      destruct (Hrow 1%nat) as (y1 & f1 & T1 & F1 & M1); [lia|].
      destruct (Hrow 2%nat) as (y2 & f2 & T2 & F2 & M2); [lia|].
      injection M0 as ->. injection M1 as ->. injection M2 as ->.
      split_and!; [by exists y0, f0|by exists y1, f1|by exists y2, f2].
Qed.
Print Assumptions set_stores.

(** ** C09, C10: SetConcentrations, then GetConcentrations *)

Lemma component_moles_fixed c s k n : (fixed c <= k)%nat -> c_comps c !! k = Some n ->
  component_moles c s k = Some (element_sum 0 Qcplus (s_totals s) n).
Proof.
  intros Hk Hn. unfold component_moles, fixed in *.
  destruct (c_h2o c); do 3 (destruct k as [|k]; [lia|]); [destruct k as [|k]; [lia|]|]; by rewrite Hn.
Qed.
Lemma moles_in_inj u gf dens v y y' : 0 < gf -> 0 < dens -> 0 < v ->
  moles_in u gf dens v y = moles_in u gf dens v y' -> y = y'.
Proof. intros H1 H2 H3 E. rewrite <- (from_to u v dens y gf), <- (from_to u v dens y' gf) by done. by rewrite E. Qed.
Lemma kept_moles u gf dens v x : let ml := moles_in u gf dens v x in kept ml ml = moles_in u gf dens v (kept ml x).
Proof. cbn zeta. unfold kept. destruct (Qc_ltb _ _); [|done]. unfold moles_in. destruct u; unfold Qcdiv; ring. Qed.

(** After any SetConcentrations all solutions are still there. *)
Lemma set_keeps c g t m m' : grid_ok g -> cfg_ok c -> (g_n g * length (c_comps c) <= length t)%nat ->
  length m = length (g_back g) -> Forall is_Some m -> set_concentrations c g t m = Ret m' -> Forall is_Some m'.
Proof.
  intros Hg (Hc & _) Ht Hl Hm E. destruct (set_total c g t m Hg Hc Ht Hl) as (m1 & E' & L & S).
  rewrite E in E'. injection E' as <-. apply Forall_lookup. intros j s' Hs'.
  assert (Hj : (j < length m)%nat) by (rewrite <- L; by eapply lookup_lt_Some).
  destruct (lookup_lt_is_Some_2 _ _ Hj) as [s Hs]. rewrite Hl in Hj.
  destruct (rep_of g j Hg Hj) as (gc & b & Hb & _).
  destruct (S j gc s) as (s1 & E1 & E2); [by exists b|done|]. rewrite Hs' in E1. injection E1 as <-.
  rewrite Forall_forall in Hm. destruct (Hm s) as [s0 ->]; [by eapply elem_of_list_lookup_2|].
  unfold cell_in in E2. destruct (decide (c_gfw c = [])); [done|].
  repeat (match type of E2 with obind ?x _ = _ => destruct x; [|done|done]; cbn [obind] in E2 end).
  destruct (Qc_ltb _ _); [|by injection E2 as <-].
  match type of E2 with obind ?x _ = _ => destruct x; [|done|done] end. cbn [obind] in E2. by injection E2 as <-.
Qed.

(** With the user's volume and density in force, every cell reports what was set for it; an
    amount below 1e-25 moles, negative ones included, is reported as zero. *)
Theorem set_then_get c g t m old :
  grid_ok g -> cfg_ok c -> c_h2o c = false -> c_calc c = false ->
  length m = length (g_back g) -> Forall is_Some m ->
  (g_n g * length (c_comps c) <= length t)%nat ->
  (forall j gc, rep g j gc -> wet g gc) ->
  exists m' out, set_concentrations c g t m = Ret m' /\ get_concentrations c g m' old = Ret out /\
    length out = (g_n g * length (c_comps c))%nat /\
    forall j gc gc' por sat rv dens k gf x,
      rep g j gc -> covers g j gc' ->
      g_por g !! gc = Some por -> g_sat g !! gc = Some sat -> g_rv g !! gc = Some rv -> g_dens g !! gc = Some dens ->
      c_gfw c !! k = Some gf -> t !! (k * g_n g + gc)%nat = Some x ->
      out !! (k * g_n g + gc')%nat =
        Some (if decide (k < 3)%nat then x else kept (moles_in (c_unit c) gf dens (por * sat * rv) x) x).
Proof.
  intros Hg Hcfg Eh Ec Hl Hm Ht Hwet. pose proof Hcfg as (Hc & Hgf & Hnd & Hel).
  destruct (set_total c g t m Hg Hc Ht Hl) as (m' & Em & Lm & _). pose proof (set_keeps c g t m m' Hg Hcfg Ht Hl Hm Em) as Hm'.
  destruct (get_layout c g m' old Hg Hcfg) as (out & Eo & Lo & Go); [congruence|done|].
  exists m', out. split_and!; [done..|].
  intros j gc gc' por sat rv dens k gf x Hr Hcov E1 E2 E3 E4 Hk Hx.
  destruct (Hwet j gc Hr) as (?&?&?&?& W1 & W2 & W3 & W4 & P1 & P2 & P3 & P4).
  rewrite E1 in W1. injection W1 as <-. rewrite E2 in W2. injection W2 as <-.
  rewrite E3 in W3. injection W3 as <-. rewrite E4 in W4. injection W4 as <-.
  assert (Pv : 0 < por * sat * rv) by (apply Qcmult_pos; [by apply Qcmult_pos|done]).
  assert (Pg : 0 < gf) by (rewrite Forall_forall in Hgf; apply Hgf; by eapply elem_of_list_lookup_2).
  assert (Hj : (j < length m)%nat) by (rewrite Hl; destruct Hr as [b Hb]; by eapply lookup_lt_Some).
  destruct (lookup_lt_is_Some_2 _ _ Hj) as [s Hs].
  rewrite Forall_forall in Hm. destruct (Hm s) as [s0 ->]; [by eapply elem_of_list_lookup_2|].
  destruct (set_stores c g t m j gc s0 por sat rv dens) as (m1 & s' & Em1 & _ & Hs' & Hw & A & B & _); [done..|].
  rewrite Em in Em1. injection Em1 as <-. destruct (B Eh) as (B0 & B1 & B2). clear B. cbn zeta in A.
  assert (Hu : used c g gc s' (por * sat * rv) dens) by (unfold used; rewrite Ec; by exists por, sat, rv).
  assert (Hout : forall y, component_moles c s' k = Some (moles_in (c_unit c) gf dens (por * sat * rv) y) ->
                   out !! (k * g_n g + gc')%nat = Some y).
  { intros y Hy. destruct (Go j gc gc' s' k gf (por * sat * rv) dens _ Hr Hcov Hs' Hw Hu Pv P4 Hk Hy) as (y' & -> & E).
    f_equal. eapply moles_in_inj; [exact Pg|exact P4|exact Pv|exact E]. }
  assert (Hkl : (k < length (c_comps c))%nat) by (destruct Hc as [_ <-]; by eapply lookup_lt_Some).
  destruct (decide (k < 3)%nat) as [Hk3|Hk3].
  - apply Hout. unfold component_moles. rewrite Eh.
    destruct k as [|[|[|k]]]; [| | |lia].
    + destruct B0 as (y & gf' & Hy & Hg' & <-). rewrite Hx in Hy. injection Hy as <-.
      rewrite Hk in Hg'. injection Hg' as <-. done.
    + destruct B1 as (y & gf' & Hy & Hg' & <-). rewrite Hx in Hy. injection Hy as <-.
      rewrite Hk in Hg'. injection Hg' as <-. done.
    + destruct B2 as (y & gf' & Hy & Hg' & <-). rewrite Hx in Hy. injection Hy as <-.
      rewrite Hk in Hg'. injection Hg' as <-. done.
  - destruct (lookup_lt_is_Some_2 _ _ Hkl) as [n Hn]. apply Hout.
    rewrite (component_moles_fixed c s' k n); [|unfold fixed; rewrite Eh; lia|done]. f_equal.
    rewrite (A k n (moles_in (c_unit c) gf dens (por * sat * rv) x)); [apply kept_moles|unfold fixed; rewrite Eh; lia|done|].
    by exists x, gf.
Qed.
Print Assumptions set_then_get.

(** With H2O as a component: charge and the elements as before, and total hydrogen and oxygen. *)
Theorem set_then_get_h2o c g t m old :
  grid_ok g -> cfg_ok c -> c_h2o c = true -> c_calc c = false ->
  length m = length (g_back g) -> Forall is_Some m ->
  (g_n g * length (c_comps c) <= length t)%nat ->
  (forall j gc, rep g j gc -> wet g gc) ->
  exists m' out, set_concentrations c g t m = Ret m' /\ get_concentrations c g m' old = Ret out /\
    length out = (g_n g * length (c_comps c))%nat /\
    forall j gc gc' por sat rv dens,
      rep g j gc -> covers g j gc' ->
      g_por g !! gc = Some por -> g_sat g !! gc = Some sat -> g_rv g !! gc = Some rv -> g_dens g !! gc = Some dens ->
      let mol gf x := moles_in (c_unit c) gf dens (por * sat * rv) x in
      (forall k gf x, (3 <= k)%nat -> c_gfw c !! k = Some gf -> t !! (k * g_n g + gc)%nat = Some x ->
         out !! (k * g_n g + gc')%nat = Some (if decide (k = 3)%nat then x else kept (mol gf x) x)) /\
      (forall gw gh go w h o, c_gfw c !! 0%nat = Some gw -> c_gfw c !! 1%nat = Some gh -> c_gfw c !! 2%nat = Some go ->
         t !! (0 * g_n g + gc)%nat = Some w -> t !! (1 * g_n g + gc)%nat = Some h -> t !! (2 * g_n g + gc)%nat = Some o ->
         exists w' h' o',
           out !! (0 * g_n g + gc')%nat = Some w' /\ out !! (1 * g_n g + gc')%nat = Some h' /\
           out !! (2 * g_n g + gc')%nat = Some o' /\
           qz 2 * mol gw w' + mol gh h' = qz 2 * mol gw w + mol gh h /\
           mol gw w' + mol go o' = mol gw w + mol go o).
Proof.
  intros Hg Hcfg Eh Ec Hl Hm Ht Hwet. pose proof Hcfg as (Hc & Hgf & Hnd & Hel).
  destruct (set_total c g t m Hg Hc Ht Hl) as (m' & Em & Lm & _). pose proof (set_keeps c g t m m' Hg Hcfg Ht Hl Hm Em) as Hm'.
  destruct (get_layout c g m' old Hg Hcfg) as (out & Eo & Lo & Go); [congruence|done|].
  exists m', out. split_and!; [done..|].
  intros j gc gc' por sat rv dens Hr Hcov E1 E2 E3 E4 mol.
  destruct (Hwet j gc Hr) as (?&?&?&?& W1 & W2 & W3 & W4 & P1 & P2 & P3 & P4).
  rewrite E1 in W1. injection W1 as <-. rewrite E2 in W2. injection W2 as <-.
  rewrite E3 in W3. injection W3 as <-. rewrite E4 in W4. injection W4 as <-.
  assert (Pv : 0 < por * sat * rv) by (apply Qcmult_pos; [by apply Qcmult_pos|done]).
  assert (Pg : forall k gf, c_gfw c !! k = Some gf -> 0 < gf).
  { intros k gf Hk. rewrite Forall_forall in Hgf; apply Hgf; by eapply elem_of_list_lookup_2. }
  assert (Hj : (j < length m)%nat) by (rewrite Hl; destruct Hr as [b Hb]; by eapply lookup_lt_Some).
  destruct (lookup_lt_is_Some_2 _ _ Hj) as [s Hs].
  rewrite Forall_forall in Hm. destruct (Hm s) as [s0 ->]; [by eapply elem_of_list_lookup_2|].
  destruct (set_stores c g t m j gc s0 por sat rv dens) as (m1 & s' & Em1 & _ & Hs' & Hw & A & _ & B & _); [done..|].
  rewrite Em in Em1. injection Em1 as <-. destruct (B Eh) as (B3 & w0 & h0 & o0 & B0 & B1 & B2 & Bh & Bo). clear B. cbn zeta in A.
  assert (Hu : used c g gc s' (por * sat * rv) dens) by (unfold used; rewrite Ec; by exists por, sat, rv).
  assert (Hout : forall k gf x, c_gfw c !! k = Some gf -> component_moles c s' k = Some x ->
                   exists y, out !! (k * g_n g + gc')%nat = Some y /\ mol gf y = x).
  { intros k gf x Hk Hx. apply (Go j gc gc' s' k gf (por * sat * rv) dens x Hr Hcov Hs' Hw Hu Pv P4 Hk Hx). }
  split.
  - intros k gf x Hk3 Hk Hx.
    assert (Hkl : (k < length (c_comps c))%nat) by (destruct Hc as [_ <-]; by eapply lookup_lt_Some).
    destruct (decide (k = 3)%nat) as [->|Hne].
    + destruct B3 as (y & gf' & Hy & Hg' & E). rewrite Hx in Hy. injection Hy as <-.
      rewrite Hk in Hg'. injection Hg' as <-.
      destruct (Hout 3%nat gf (s_cb s') Hk) as (y & -> & Ey); [unfold component_moles; by rewrite Eh|].
      f_equal. rewrite <- E in Ey. eapply moles_in_inj; [by eapply Pg|exact P4|exact Pv|exact Ey].
    + destruct (lookup_lt_is_Some_2 _ _ Hkl) as [n Hn].
      assert (Hfx : (fixed c <= k)%nat) by (unfold fixed; rewrite Eh; lia).
      destruct (Hout k gf _ Hk (component_moles_fixed c s' k n Hfx Hn)) as (y & -> & Ey).
      f_equal. rewrite (A k n (mol gf x) Hfx Hn) in Ey by by exists x, gf.
      unfold mol in Ey. rewrite kept_moles in Ey. eapply moles_in_inj; [by eapply Pg|exact P4|exact Pv|exact Ey].
  - intros gw gh go w h o Gw Gh G_o Tw Th To.
    destruct B0 as (yw & gw' & Hyw & Hgw & <-). rewrite Tw in Hyw. injection Hyw as <-. rewrite Gw in Hgw. injection Hgw as <-.
    destruct B1 as (yh & gh' & Hyh & Hgh & <-). rewrite Th in Hyh. injection Hyh as <-. rewrite Gh in Hgh. injection Hgh as <-.
    destruct B2 as (yo & go' & Hyo & Hgo & <-). rewrite To in Hyo. injection Hyo as <-. rewrite G_o in Hgo. injection Hgo as <-.
    destruct (Hout 0%nat gw (s_mw s' * qz 1000 / gw) Gw) as (w' & Ow & Mw);
      [unfold component_moles; rewrite Eh, Gw; done|].
    destruct (Hout 1%nat gh (s_h s' - qz 2 * (s_mw s' * qz 1000 / gw)) Gh) as (h' & Oh & Mh);
      [unfold component_moles; rewrite Eh, Gw; done|].
    destruct (Hout 2%nat go (s_o s' - s_mw s' * qz 1000 / gw) G_o) as (o' & Oo & Mo);
      [unfold component_moles; rewrite Eh, Gw; done|].
    exists w', h', o'. split_and!; [done..| |].
    + rewrite Mw, Mh, Bh. unfold mol. ring.
    + rewrite Mw, Mo, Bo. unfold mol. ring.
Qed.
Print Assumptions set_then_get_h2o.

(** ** C11: units *)

Lemma row_of_amounts c g j gc b s v dens : cfg_ok c -> g_back g !! j = Some (gc :: b) ->
  used c g gc s v dens -> 0 < v ->
  exists d, row_of c g (gc :: b) s = Ret d /\ length d = length (c_comps c) /\
    forall k x gf, amounts c s !! k = Some x -> c_gfw c !! k = Some gf ->
      d !! k = Some (from_moles (c_unit c) v dens x gf).
Proof.
  intros (Hc & Hgf & _) Hb Hu Hv. unfold row_of. rewrite (used_vol_dens c g j gc b s v dens Hb Hu Hv).
  cbn [obind fst snd]. by apply cell_out_spec.
Qed.

(** The same cells reported in the three units. *)
Theorem get_units c g m old :
  grid_ok g -> cfg_ok c -> length m = length (g_back g) -> Forall is_Some m ->
  exists molar mg frac,
    get_concentrations (with_unit MolL c) g m old = Ret molar /\
    get_concentrations (with_unit MgL c) g m old = Ret mg /\
    get_concentrations (with_unit MassFraction c) g m old = Ret frac /\
    forall j gc0 gc s v dens k gf,
      rep g j gc0 -> covers g j gc -> m !! j = Some (Some s) -> used c g gc0 s v dens -> 0 < v -> 0 < dens ->
      c_gfw c !! k = Some gf ->
      exists x, molar !! (k * g_n g + gc)%nat = Some x /\
                mg !! (k * g_n g + gc)%nat = Some (x * qz 1000 * gf) /\
                frac !! (k * g_n g + gc)%nat = Some (x * qz 1000 * gf / qz 1000000 / dens).
Proof.
  intros Hg Hc Hl Hm. pose proof Hc as (Hco & Hgf & _).
  destruct (get_spec (with_unit MolL c) g m old Hg Hco Hm Hl) as (o1 & E1 & _ & S1).
  destruct (get_spec (with_unit MgL c) g m old Hg Hco Hm Hl) as (o2 & E2 & _ & S2).
  destruct (get_spec (with_unit MassFraction c) g m old Hg Hco Hm Hl) as (o3 & E3 & _ & S3).
  exists o1, o2, o3. split_and!; [done..|].
  intros j gc0 gc s v dens k gf [b Hb] (b' & Hb' & Hin) Hs Hu Hv Hd Hk.
  rewrite Hb in Hb'. injection Hb' as <-.
  assert (Hkl : (k < length (c_comps c))%nat) by (destruct Hco as [_ <-]; by eapply lookup_lt_Some).
  assert (Hgc : (gc < g_n g)%nat).
  { destruct (back_facts g j _ Hg Hb) as [_ Hf]. rewrite Forall_forall in Hf. by apply Hf. }
  destruct (S1 k gc Hkl Hgc) as [A1 _]. destruct (A1 j (gc0 :: b) s Hb Hin Hs) as (d1 & R1 & _ & F1).
  destruct (S2 k gc Hkl Hgc) as [A2 _]. destruct (A2 j (gc0 :: b) s Hb Hin Hs) as (d2 & R2 & _ & F2).
  destruct (S3 k gc Hkl Hgc) as [A3 _]. destruct (A3 j (gc0 :: b) s Hb Hin Hs) as (d3 & R3 & _ & F3).
  destruct (row_of_amounts (with_unit MolL c) g j gc0 b s v dens Hc Hb Hu Hv) as (d1' & R1' & _ & G1).
  destruct (row_of_amounts (with_unit MgL c) g j gc0 b s v dens Hc Hb Hu Hv) as (d2' & R2' & _ & G2).
  destruct (row_of_amounts (with_unit MassFraction c) g j gc0 b s v dens Hc Hb Hu Hv) as (d3' & R3' & _ & G3).
  rewrite R1 in R1'. injection R1' as <-. rewrite R2 in R2'. injection R2' as <-. rewrite R3 in R3'. injection R3' as <-.
  destruct (lookup_lt_is_Some_2 (amounts c s) k) as [x Hx]; [by rewrite amounts_len|].
  assert (Pg : 0 < gf) by (rewrite Forall_forall in Hgf; apply Hgf; by eapply elem_of_list_lookup_2).
  apply Qclt_ne in Hv, Hd, Pg.
  exists (x / v). rewrite !(Nat.mul_comm k), F1, F2, F3, (G1 k x gf Hx Hk), (G2 k x gf Hx Hk), (G3 k x gf Hx Hk).
  split_and!; [done| |]; f_equal; unfold from_moles; cbn [c_unit with_unit].
  - field. done.
  - change (qz 1000000) with (qz 1000 * qz 1000). assert (H : qz 1000 <> 0) by done. revert H.
    generalize (qz 1000). intros q Hq. field. auto.
Qed.
Print Assumptions get_units.

(** The same concentrations given in another unit leave the cells in the same state. *)
Theorem set_units c g u u' t t' m :
  grid_ok g -> cfg_ok c -> length m = length (g_back g) ->
  length t = (g_n g * length (c_comps c))%nat -> length t' = (g_n g * length (c_comps c))%nat ->
  (forall j gc dens k gf x x', rep g j gc -> g_dens g !! gc = Some dens -> c_gfw c !! k = Some gf ->
     t !! (k * g_n g + gc)%nat = Some x -> t' !! (k * g_n g + gc)%nat = Some x' ->
     moles_in u gf dens 1 x = moles_in u' gf dens 1 x') ->
  exists m', set_concentrations (with_unit u c) g t m = Ret m' /\
             set_concentrations (with_unit u' c) g t' m = Ret m'.
Proof.
  intros Hg Hc Hl Ht Ht' Hsame. pose proof Hc as (Hco & Hgf & _).
  assert (Lt : (g_n g * length (c_comps c) <= length t)%nat) by (rewrite Ht; done).
  assert (Lt' : (g_n g * length (c_comps c) <= length t')%nat) by (rewrite Ht'; done).
  destruct (set_total (with_unit u c) g t m Hg Hco Lt Hl) as (m1 & E1 & L1 & S1).
  destruct (set_total (with_unit u' c) g t' m Hg Hco Lt' Hl) as (m2 & E2 & L2 & S2).
  exists m1. split; [done|]. rewrite E2. f_equal. symmetry. apply list_eq. intros j.
  destruct (decide (j < length m)%nat) as [Hj|Hj].
  2:{ rewrite !lookup_ge_None_2 by lia. done. }
  destruct (lookup_lt_is_Some_2 _ _ Hj) as [s Hs].
  destruct (rep_of g j Hg) as (gc & b & Hb & Hgc); [lia|].
  assert (Hr : rep g j gc) by by exists b.
  destruct (S1 j gc s Hr Hs) as (s1 & -> & C1). destruct (S2 j gc s Hr Hs) as (s2 & -> & C2). f_equal.
  destruct (rep_props g j gc Hg Hr) as (_ & _ & por & sat & rv & dens & P1 & P2 & P3 & P4).
  assert (Hne : c_gfw c <> []).
  { intros E; destruct Hco as [H1 H2]; rewrite E in H2; unfold fixed in H1; simpl in H2; destruct (c_h2o c); lia. }
  destruct (decide (0 < sat)) as [Hsat|Hsat].
  2:{ assert (Ef : Qc_ltb 0 sat = false).
      { destruct (Qc_ltb 0 sat) eqn:E; [|done]. by apply Qc_ltb_true in E. }
      unfold cell_in, vat in C1, C2. cbn [c_gfw with_unit] in C1, C2. rewrite decide_False in C1, C2 by done.
      rewrite Hb in C1, C2. cbn in C1, C2. rewrite P4 in C1, C2. cbn in C1, C2. rewrite P1 in C1, C2. cbn in C1, C2.
      rewrite P3 in C1, C2. cbn in C1, C2. rewrite P2 in C1, C2. cbn in C1, C2. rewrite Ef in C1, C2. congruence. }
  destruct s as [s|].
  2:{ unfold cell_in, vat in C1, C2. cbn [c_gfw with_unit] in C1, C2. rewrite decide_False in C1, C2 by done.
      rewrite Hb in C1, C2. cbn in C1, C2. rewrite P4 in C1, C2. cbn in C1, C2. rewrite P1 in C1, C2. cbn in C1, C2.
      rewrite P3 in C1, C2. cbn in C1, C2. rewrite P2 in C1, C2. cbn in C1, C2. destruct (Qc_ltb 0 sat); congruence. }
  destruct (cell_in_spec (with_unit u c) g j gc t s por sat rv dens Hg Hco Hr P1 P2 P3 P4 Hsat) as (s1' & D1 & F1).
  destruct (cell_in_spec (with_unit u' c) g j gc t' s por sat rv dens Hg Hco Hr P1 P2 P3 P4 Hsat) as (s2' & D2 & F2).
  rewrite C1 in D1. injection D1 as ->. rewrite C2 in D2. injection D2 as ->. f_equal.
  assert (Er : row_moles (with_unit u c) dens (por * sat * rv) (row_at (with_unit u c) g t gc) =
               row_moles (with_unit u' c) dens (por * sat * rv) (row_at (with_unit u' c) g t' gc)).
  { apply list_eq. intros k. destruct (decide (k < length (c_comps c))%nat) as [Hk|Hk].
    2:{ rewrite !lookup_ge_None_2; [done|..]; unfold row_moles; rewrite zip_with_length; unfold row_at;
        rewrite map_length, seq_length; cbn [c_gfw c_comps with_unit]; destruct Hco as [_ ->]; lia. }
    destruct (lookup_lt_is_Some_2 t (k * g_n g + gc)) as [x Hx]; [nia|].
    destruct (lookup_lt_is_Some_2 t' (k * g_n g + gc)) as [x' Hx']; [nia|].
    destruct (lookup_lt_is_Some_2 (c_gfw c) k) as [gf Hgk]; [by destruct Hco as [_ ->]|].
    rewrite (row_moles_lookup (with_unit u c) dens _ _ k x gf Hgf) by (done || by apply row_at_lookup).
    rewrite (row_moles_lookup (with_unit u' c) dens _ _ k x' gf Hgf) by (done || by apply row_at_lookup).
    f_equal. cbn [c_unit with_unit].
    assert (Hv1 : forall w v y, moles_in w gf dens v y = moles_in w gf dens 1 y * v).
    { intros w v y. unfold moles_in. destruct w; unfold Qcdiv; ring. }
    rewrite (Hv1 u), (Hv1 u'). f_equal. by eapply Hsame. }
  assert (Lr : forall w tt, length (row_at (with_unit w c) g tt gc) = length (c_comps c)).
  { intros w tt. unfold row_at. by rewrite map_length, seq_length. }
  cbn [c_h2o with_unit] in F1, F2. destruct (c_h2o c) eqn:Eh.
  - destruct (in_h2o_spec (with_unit u c) dens por sat rv (row_at (with_unit u c) g t gc) s Hco Eh (Lr u t))
      as (w1 & h1 & o1 & cb1 & r1 & Q1 & _ & I1).
    destruct (in_h2o_spec (with_unit u' c) dens por sat rv (row_at (with_unit u' c) g t' gc) s Hco Eh (Lr u' t'))
      as (w2 & h2 & o2 & cb2 & r2 & Q2 & _ & I2).
    rewrite Er, Q2 in Q1. injection Q1 as -> -> -> -> ->. rewrite I1 in F1. rewrite I2 in F2.
    injection F1 as <-. injection F2 as <-. done.
  - destruct (in_noh2o_spec (with_unit u c) dens por sat rv (row_at (with_unit u c) g t gc) s Hco Eh (Lr u t))
      as (h1 & o1 & cb1 & r1 & Q1 & _ & I1).
    destruct (in_noh2o_spec (with_unit u' c) dens por sat rv (row_at (with_unit u' c) g t' gc) s Hco Eh (Lr u' t'))
      as (h2 & o2 & cb2 & r2 & Q2 & _ & I2).
    rewrite Er, Q2 in Q1. injection Q1 as -> -> -> ->. rewrite I1 in F1. rewrite I2 in F2.
    injection F1 as <-. injection F2 as <-. done.
Qed.
Print Assumptions set_units.

(** ** C12, C13 *)

(** Inactive cells get the inactive value and cells of one chemistry cell equal values, whatever the
    vector held before and whatever the contents are. *)
Theorem get_inactive_shared c g m old :
  grid_ok g -> cfg_ok c -> length m = length (g_back g) -> Forall is_Some m ->
  exists out, get_concentrations c g m old = Ret out /\
    (forall gc k, (gc < g_n g)%nat -> (k < length (c_comps c))%nat -> (forall j, ~ covers g j gc) ->
       out !! (k * g_n g + gc)%nat = Some inactive) /\
    (forall j gc gc' k, covers g j gc -> covers g j gc' -> (k < length (c_comps c))%nat ->
       is_Some (out !! (k * g_n g + gc)%nat) /\
       out !! (k * g_n g + gc)%nat = out !! (k * g_n g + gc')%nat).
Proof.
  intros Hg (Hc & _) Hl Hm. destruct (get_spec c g m old Hg Hc Hm Hl) as (out & E & L & S).
  exists out. split_and!; [done|..].
  - intros gc k Hgc Hk Hno. rewrite Nat.mul_comm. by apply S.
  - intros j gc gc' k (b & Hb & Hin) (b' & Hb' & Hin') Hk. rewrite Hb in Hb'. injection Hb' as <-.
    assert (Hgc : (gc < g_n g /\ gc' < g_n g)%nat).
    { destruct (back_facts g j _ Hg Hb) as [_ Hf]. rewrite Forall_forall in Hf. by split; apply Hf. }
    destruct Hgc as [Hgc Hgc'].
    assert (Hj : (j < length m)%nat) by (rewrite Hl; by eapply lookup_lt_Some).
    destruct (lookup_lt_is_Some_2 _ _ Hj) as [s Hs].
    rewrite Forall_forall in Hm. destruct (Hm s) as [s0 ->]; [by eapply elem_of_list_lookup_2|].
    destruct (proj1 (S k gc Hk Hgc) j b s0 Hb Hin Hs) as (d & R & Ld & F).
    destruct (proj1 (S k gc' Hk Hgc') j b s0 Hb Hin' Hs) as (d' & R' & _ & F').
    rewrite R in R'. injection R' as <-. rewrite (Nat.mul_comm k), F, F'. split; [|done].
    apply lookup_lt_is_Some_2. by rewrite Ld.
Qed.
Print Assumptions get_inactive_shared.

Lemma scatter1_other gcs f out out' gc : scatter1 gcs f out = Ret out' -> gc ∉ gcs -> out' !! gc = out !! gc.
Proof.
  revert out. induction gcs as [|x gcs IH]; intros out; simpl; [by intros [= <-]|].
  destruct (f x) as [y| |]; [|done..]. cbn [obind]. unfold vset. case_decide; [|done]. cbn [obind].
  intros E Hno. apply not_elem_of_cons in Hno as [H1 H2]. rewrite (IH _ E H2).
  by rewrite list_lookup_insert_ne.
Qed.
Lemma get1_other f back m out out' gc : get1_cells f back m out = Ret out' -> gc ∉ mjoin back -> out' !! gc = out !! gc.
Proof.
  revert m out. induction back as [|b back IH]; intros m out; simpl; [by intros [= <-]|].
  destruct m as [|[s|] m]; [done| |done]. destruct (scatter1 b (f s) out) as [o| |] eqn:Es; [|done..].
  cbn [obind]. intros E Hno. apply not_elem_of_app in Hno as [H1 H2]. rewrite (IH _ _ E H2).
  by eapply scatter1_other.
Qed.

(** Density and saturation keep what the caller's vector held for an inactive cell; only a vector
    that was too short is filled. The documentation promises the inactive value in both cases. *)
Theorem get_density_inactive_refuted g m old out gc :
  get_density g m old = Ret out \/ get_saturation g m old = Ret out ->
  (gc < g_n g)%nat -> (forall j, ~ covers g j gc) ->
  out !! gc = if decide (gc < length old)%nat then old !! gc else Some inactive.
Proof.
  intros Hout Hgc Hno.
  assert (Hj : gc ∉ mjoin (g_back g)) by (intros H; apply join_covers in H as [j Hj]; by apply (Hno j)).
  assert (E : out !! gc = vresize (g_n g) inactive old !! gc).
  { destruct Hout as [H|H]; by eapply get1_other in H. }
  rewrite E. unfold vresize. case_decide as Hlt.
  - rewrite lookup_app_l by (rewrite take_length; lia). by rewrite lookup_take by lia.
  - rewrite lookup_app_r by (rewrite take_length; lia). apply lookup_replicate. split; [done|].
    rewrite take_length. lia.
Qed.
Print Assumptions get_density_inactive_refuted.

(** The inactive value is the single-precision number closest to 1e30 and not 1e30. *)
Theorem inactive_value :
  inactive <> qz (10 ^ 30) /\ inactive = qz (13234890 * 2 ^ 76) /\
  (13234890 < 2 ^ 24 /\ 2 * Z.abs (13234890 * 2 ^ 76 - 10 ^ 30) < 2 ^ 76)%Z.
Proof. split_and!; [|done|done|done]. intros H. apply (f_equal this) in H. vm_compute in H. discriminate. Qed.
Print Assumptions inactive_value.

(** ** Concrete cases *)

(** Four grid cells: 0 and 2 share a chemistry cell, 1 has its own, 3 is inactive. *)
Definition ex_cfg (u : sunit) (calc : bool) : cfg :=
  Cfg u false ["H"; "O"; "Charge"; "Ca"; "Cl"] [qz 1; qz 16; qz 1; qz 40; Q2Qc (71 # 2)] calc.
Definition ex_cfgw (u : sunit) (calc : bool) : cfg :=
  Cfg u true ["H2O"; "H"; "O"; "Charge"; "Ca"] [Q2Qc (18016 # 1000); qz 1; qz 16; qz 1; qz 40] calc.
Definition ex_grid : grid :=
  Grid 4 [[0; 2]; [1]]%nat [Q2Qc (1 # 4); Q2Qc (1 # 5); Q2Qc (1 # 4); 0] [qz 1; Q2Qc (1 # 2); qz 1; 0]
       [qz 2; qz 10; qz 2; 0] [qz 1; Q2Qc (11 # 10); qz 1; 0].
Definition ex_sol (v : Qc) : sol :=
  Sol (qz 25) (qz 7) (qz 4) 0 1 1 1 1 1 (qz 111) (Q2Qc (111 # 2)) 0 1 v 0 [("Ca", qz 3); ("S(-2)", qz 1); ("S(6)", qz 2)] [] [] ∅.
Definition ex_cells : cells := [Some (ex_sol 1); Some (ex_sol 2)].
Definition ex_t : list Qc :=
  [qz 100; qz 110; qz 999; qz 999;  qz 50; qz 55; qz 999; qz 999;  Q2Qc (-1 # 100); 0; qz 999; qz 999;
   qz 2; qz (-3); qz 999; qz 999;  qz 4; Q2Qc (7 # 2); qz 999; qz 999].

Lemma ex_grid_ok : grid_ok ex_grid.
Proof.
  split; [|cbn; lia]. split_and!.
  - repeat constructor; done.
  - repeat constructor; cbn; lia.
  - apply (bool_decide_unpack _). vm_compute. exact I.
Qed.
Lemma ex_cfg_ok u calc : cfg_ok (ex_cfg u calc).
Proof.
  split_and!; [split; cbn; [lia|done]|repeat constructor|apply (bool_decide_unpack _); vm_compute; exact I|].
  cbn. repeat constructor; try done; unfold valence; cbn; tauto.
Qed.
Lemma ex_cfgw_ok u calc : cfg_ok (ex_cfgw u calc).
Proof.
  split_and!; [split; cbn; [lia|done]|repeat constructor|apply (bool_decide_unpack _); vm_compute; exact I|].
  cbn. repeat constructor; try done; unfold valence; cbn; tauto.
Qed.
Lemma ex_wet j gc : rep ex_grid j gc -> wet ex_grid gc.
Proof.
  intros [b Hb]. destruct j as [|[|j]]; cbn in Hb; [injection Hb as <- _|injection Hb as <- _|done];
    do 4 eexists; (split_and!; [cbn; reflexivity..|by vm_compute|by vm_compute|by vm_compute|by vm_compute]).
Qed.

Definition qs (o : outcome (list Qc)) : outcome (list Q) :=
  match o with Ret l => Ret (map this l) | Throw => Throw | UB => UB end.

(** The hypotheses of [set_then_get] hold of the case above; the values of cells 2 and 3 are ignored,
    the negative amount of Ca in cell 1 comes back as zero, the rest as given. *)
Example set_then_get_case :
  (exists m', set_concentrations (ex_cfg MgL false) ex_grid ex_t ex_cells = Ret m' /\
    let i := this inactive in
    qs (get_concentrations (ex_cfg MgL false) ex_grid m' []) =
    Ret [100; 110; 100; i;  50; 55; 50; i;  -1 # 100; 0; -1 # 100; i;  2; 0; 2; i;  4; 7 # 2; 4; i]%Q).
Proof. eexists. split; [reflexivity|]. vm_compute. reflexivity. Qed.

Example set_then_get_applies old :
  exists m' out, set_concentrations (ex_cfg MassFraction false) ex_grid ex_t ex_cells = Ret m' /\
    get_concentrations (ex_cfg MassFraction false) ex_grid m' old = Ret out /\ out !! 14%nat = Some (qz 2).
Proof.
  destruct (set_then_get (ex_cfg MassFraction false) ex_grid ex_t ex_cells old) as (m' & out & E1 & E2 & _ & H).
  - apply ex_grid_ok.
  - apply ex_cfg_ok.
  - done.
  - done.
  - done.
  - repeat constructor; by eexists.
  - cbn. lia.
  - apply ex_wet.
  - exists m', out. split_and!; [done..|].
    refine (eq_trans (H 0%nat 0%nat 2%nat _ _ _ _ 3%nat _ _ _ _ _ _ _ _ _ _) _).
    + by eexists.
    + exists [0; 2]%nat. split; [done|]. right. left.
    + reflexivity.
    + reflexivity.
    + reflexivity.
    + reflexivity.
    + reflexivity.
    + reflexivity.
    + vm_compute. reflexivity.
Qed.

(** With H2O as a component the split is not preserved although the totals are: 50 mol/L of water
    come back as 50.1..., with less hydrogen and oxygen. *)
Definition ex_tw : list Qc :=
  [qz 50; qz 55; 0; 0;  qz 10; 0; 0; 0;  qz 5; 0; 0; 0;  0; 0; 0; 0;  qz 2; 0; 0; 0].
Theorem set_then_get_h2o_split_refuted :
  exists m' out w' h' o', set_concentrations (ex_cfgw MolL false) ex_grid ex_tw ex_cells = Ret m' /\
    get_concentrations (ex_cfgw MolL false) ex_grid m' [] = Ret out /\
    out !! 0%nat = Some w' /\ out !! 4%nat = Some h' /\ out !! 8%nat = Some o' /\
    w' <> qz 50 /\ qz 2 * w' + h' = qz 110 /\ w' + o' = qz 55.
Proof.
  destruct (set_then_get_h2o (ex_cfgw MolL false) ex_grid ex_tw ex_cells []) as (m' & out & E1 & E2 & _ & H).
  - apply ex_grid_ok.
  - apply ex_cfgw_ok.
  - done.
  - done.
  - done.
  - repeat constructor; by eexists.
  - cbn. lia.
  - apply ex_wet.
  - destruct (H 0%nat 0%nat 0%nat (Q2Qc (1 # 4)) (qz 1) (qz 2) (qz 1)) as [_ H'].
    + by eexists.
    + exists [0; 2]%nat. split; [done|]. left.
    + reflexivity.
    + reflexivity.
    + reflexivity.
    + reflexivity.
    + destruct (H' _ _ _ _ _ _ eq_refl eq_refl eq_refl eq_refl eq_refl eq_refl) as (w' & h' & o' & O1 & O2 & O3 & Q1 & Q2).
      cbn [Nat.mul Nat.add g_n ex_grid] in O1, O2, O3.
      exists m', out, w', h', o'. split_and!; [done..| | |].
      * intros ->. vm_compute in E1. injection E1 as <-. vm_compute in E2. injection E2 as <-.
        injection O1 as O1. discriminate O1.
      * unfold moles_in in Q1. cbn [c_unit ex_cfgw] in Q1.
        apply (f_equal (fun x => x * qz 2)) in Q1. 
        transitivity ((qz 2 * (w' * (Q2Qc (1 # 4) * qz 1 * qz 2)) + h' * (Q2Qc (1 # 4) * qz 1 * qz 2)) * qz 2).
        { replace (Q2Qc (1 # 4) * qz 1 * qz 2) with (/ qz 2) by (apply Qc_is_canon; vm_compute; reflexivity).
          field. done. }
        rewrite Q1. apply Qc_is_canon. vm_compute. reflexivity.
      * unfold moles_in in Q2. cbn [c_unit ex_cfgw] in Q2.
        apply (f_equal (fun x => x * qz 2)) in Q2. 
        transitivity ((w' * (Q2Qc (1 # 4) * qz 1 * qz 2) + o' * (Q2Qc (1 # 4) * qz 1 * qz 2)) * qz 2).
        { replace (Q2Qc (1 # 4) * qz 1 * qz 2) with (/ qz 2) by (apply Qc_is_canon; vm_compute; reflexivity).
          field. done. }
        rewrite Q2. apply Qc_is_canon. vm_compute. reflexivity.
Qed.
Print Assumptions set_then_get_h2o_split_refuted.

(** With use_solution_density_volume, which is the default, what is reported right after a
    SetConcentrations is not what was set: the amounts are computed from the user's volume and
    reported in the volume of the last calculation. *)
Theorem set_then_get_default_refuted :
  exists m' out y, set_concentrations (ex_cfg MolL true) ex_grid ex_t ex_cells = Ret m' /\
    get_concentrations (ex_cfg MolL true) ex_grid m' [] = Ret out /\
    ex_t !! 0%nat = Some (qz 100) /\ out !! 0%nat = Some y /\ y = qz 50.
Proof.
  destruct (set_total (ex_cfg MolL true) ex_grid ex_t ex_cells) as (m' & E & _);
    [apply ex_grid_ok|apply ex_cfg_ok|cbn; lia|done|].
  pose proof E as E0. vm_compute in E0. injection E0 as <-.
  do 3 eexists. split_and!; [exact E|vm_compute; reflexivity|done|done|].
  apply Qc_is_canon. vm_compute. reflexivity.
Qed.
Print Assumptions set_then_get_default_refuted.
