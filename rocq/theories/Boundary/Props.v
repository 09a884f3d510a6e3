(** Properties C47 and C62: boundary conditions. *)
From Coq Require Import String QArith Qcanon.
From stdpp Require Import prelude strings gmap sorting.
From Verif.Base Require Import Result.
From Verif.Names Require Import Model Spec Proofs.
From Verif.Solution Require Import Model Spec Proofs Props.
From Verif.Conc Require Import Model Spec Proofs Props.
From Verif.Boundary Require Import Model Spec Proofs.
Local Open Scope Qc_scope.

Lemma row_value c ps d k gf : cfg_ok c -> proper ps -> (forall s f, (s, f) ∈ ps -> sound s) ->
  conc_row c (mix_parts ps sol_zero) = Ret d -> c_gfw c !! k = Some gf ->
  exists y, d !! k = Some y /\
    moles_in (c_unit c) gf (weighted (fun s => s_mw s * s_dens s) ps / weighted s_mw ps)
             (weighted s_vol ps) y = weighted (moles_of c k) ps.
Proof.
  intros Hc Hpp Hsp Ed Hk. pose proof Hc as (Hco & Hgf & _).
  assert (Hkl : (k < length (c_comps c))%nat) by (destruct Hco as [_ <-]; by eapply lookup_lt_Some).
  set (m := mix_parts ps sol_zero) in *.
  assert (Hwf : wf_totals m).
  { apply mix_parts_wf. intros s f Hin. by apply (Hsp s f Hin). }
  destruct (mix_conserves ps) as [Hext _].
  assert (Ev : s_vol m = weighted s_vol ps) by (apply Hext; do 4 right; by left).
  destruct (mix_averages ps s_dens Hpp) as (_ & Edn & _); [do 5 right; by left|]. fold m in Edn.
  pose proof Hpp as [Q1 Q2].
  assert (Hv : 0 < weighted s_vol ps).
  { apply weighted_pos; [|done]. intros s f Hin. split; [by apply (Q1 s f)|]. intros _. by apply (Hsp s f Hin). }
  assert (Hd : 0 < weighted (fun s => s_mw s * s_dens s) ps / weighted s_mw ps).
  { apply Qcmult_pos.
    - apply weighted_pos; [|done]. intros s f Hin. split; [by apply (Q1 s f)|]. intros _.
      destruct (Hsp s f Hin) as (_ & ? & _ & ?). by apply Qcmult_pos.
    - assert (Hw : 0 < weighted s_mw ps) by by apply weighted_pos.
      revert Hw. generalize (weighted s_mw ps). intros w Hw. destruct (Qclt_le_dec 0 (/ w)) as [H|H]; [done|].
      exfalso. apply (Qclt_not_le 0 1); [done|]. rewrite <- (Qcmult_inv_r w) by by apply Qclt_ne.
      replace 0 with (0 * w) by ring. rewrite Qcmult_comm. apply Qcmult_le_compat_r; [done|by apply Qclt_le_weak]. }
  destruct (cell_out_spec c (s_vol m) (s_dens m) m Hco Hgf) as (d' & E1 & _ & E2).
  unfold conc_row in Ed. rewrite Ed in E1. injection E1 as <-.
  assert (Hx : exists x, component_moles c m k = Some x).
  { unfold component_moles. destruct (lookup_lt_is_Some_2 _ _ Hkl) as [n Hn'].
    destruct (c_h2o c); [destruct k as [|[|[|[|k]]]]|destruct k as [|[|[|k]]]];
      try (eexists; reflexivity); rewrite Hn'; by eexists. }
  destruct Hx as [x Hx]. pose proof (mix_components c k ps x Hx) as ->.
  exists (from_moles (c_unit c) (s_vol m) (s_dens m) (weighted (moles_of c k) ps) gf). split.
  - apply E2; [by apply amounts_component|done].
  - rewrite Ev, Edn. apply moles_from; [done|done|]. rewrite Forall_forall in Hgf. apply Hgf.
    by eapply elem_of_list_lookup_2.
Qed.

Lemma lone_value u gf (f mw dn v x y : Qc) : f <> 0 -> mw <> 0 ->
  moles_in u gf ((f * (mw * dn) + 0) / (f * mw + 0)) (f * v + 0) y = f * x + 0 -> moles_in u gf dn v y = x.
Proof.
  intros Hf Hm Hy.
  assert (Ed : (f * (mw * dn) + 0) / (f * mw + 0) = dn) by (field; done).
  rewrite Ed in Hy.
  assert (Hl : moles_in u gf dn (f * v + 0) y = f * moles_in u gf dn v y).
  { unfold moles_in, Qcdiv. generalize (/ gf) (/ qz 1000) (qz 1000). intros ? ? ?. destruct u; ring. }
  rewrite Hl in Hy. revert Hy. generalize (moles_in u gf dn v y). intros z Hy.
  assert (E : / f * (f * z) = / f * (f * x)) by (rewrite Hy; ring).
  rewrite !Qcmult_assoc, (Qcmult_comm (/ f)), Qcmult_inv_r in E by done. rewrite !Qcmult_1_l in E. done.
Qed.
Lemma proper_one s f : 0 < f -> 0 < s_mw s -> proper [(s, f)].
Proof.
  intros Hf Hm. split.
  - intros s' f' [= -> ->]%elem_of_list_singleton. split; [by apply Qclt_le_weak|done].
  - exists s, f. split; [left|by apply Qclt_ne].
Qed.

(** ** C47 *)

(** Each boundary condition gets the concentrations of what was asked for: the moles of a component
    are the fraction-weighted moles of the solutions, the volume is their weighted volume, the density
    their average by mass of water. Value of component [k] of condition [i] stands at k*n+i. *)
Theorem boundary_values t c b1 b2 fr old :
  cfg_ok c -> numbered t -> b1 <> [] ->
  (forall i, (i < length b1)%nat -> exists parts, asked t b1 b2 fr i parts) ->
  exists out, boundary_concentrations t c b1 b2 fr old = Ret (IRM_OK, out) /\
    length out = (length b1 * length (c_comps c))%nat /\
    forall i parts k gf, asked t b1 b2 fr i parts -> proper parts ->
      (forall s f, (s, f) ∈ parts -> sound s) -> c_gfw c !! k = Some gf ->
      exists y, out !! (k * length b1 + i)%nat = Some y /\
        moles_in (c_unit c) gf (weighted (fun s => s_mw s * s_dens s) parts / weighted s_mw parts)
                 (weighted s_vol parts) y = weighted (moles_of c k) parts.
Proof.
  intros Hc Hn Hne Hask. pose proof Hc as (Hco & Hgf & _).
  destruct (boundaries_spec t (conc_row c) (length (c_comps c)) b1 b2 fr (length b1) 0 ∅
              (resize (length (c_comps c) * length b1) 0 old)) as (out & E & L & _ & V); [done|..].
  { intros n s _ H. by rewrite lookup_empty in H. }
  { rewrite resize_length. lia. }
  { lia. }
  { intros j Hj. apply Hask. lia. }
  { intros s. by apply conc_row_total. }
  exists out. rewrite resize_length in L. split_and!.
  - unfold boundary_concentrations. destruct b1; [done|]. by rewrite E.
  - lia.
  - intros i parts k gf Ha Hp Hs Hk.
    assert (Hi : (i < length b1)%nat) by (destruct Ha; by eapply lookup_lt_Some).
    assert (Hkl : (k < length (c_comps c))%nat) by (destruct Hco as [_ <-]; by eapply lookup_lt_Some).
    destruct (V i parts) as (ps & d & (W & P & F & _) & Ed & Vk); [lia|done|].
    rewrite (Nat.mul_comm k), Vk by done. rewrite <- !W. apply row_value; [done|by apply P| |done|done].
    intros s f Hin. destruct (F s f Hin) as [f' Hin']. by apply (Hs s f').
Qed.
Print Assumptions boundary_values.

(** A solution on its own gives its own concentrations, whatever positive fraction is listed. *)
Theorem boundary_single t c b1 b2 fr old :
  cfg_ok c -> numbered t -> b1 <> [] ->
  (forall i, (i < length b1)%nat -> exists parts, asked t b1 b2 fr i parts) ->
  exists out, boundary_concentrations t c b1 b2 fr old = Ret (IRM_OK, out) /\
    forall i s f k gf, asked t b1 b2 fr i [(s, f)] -> 0 < f -> sound s -> c_gfw c !! k = Some gf ->
      exists y, out !! (k * length b1 + i)%nat = Some y /\
        moles_in (c_unit c) gf (s_dens s) (s_vol s) y = moles_of c k s.
Proof.
  intros Hc Hn Hne Hask. destruct (boundary_values t c b1 b2 fr old Hc Hn Hne Hask) as (out & E & _ & V).
  exists out. split; [done|]. intros i s f k gf Ha Hf Hs Hk.
  destruct (V i [(s, f)] k gf Ha) as (y & Ey & Hy); [|by intros s' f' [= -> ->]%elem_of_list_singleton|done|].
  { apply proper_one; [done|]. apply Hs. }
  exists y. split; [done|]. cbn [weighted] in Hy. destruct Hs as (_ & Hm & _ & _). apply Qclt_ne in Hf, Hm.
  by apply lone_value in Hy.
Qed.
Print Assumptions boundary_single.

(** Whatever numbers and fractions are listed, the call reports success. *)
Theorem boundary_reports t c b1 b2 fr old :
  cfg_ok c ->
  (b1 = [] -> boundary_concentrations t c b1 b2 fr old = Ret (IRM_FAIL, old)) /\
  (b1 <> [] -> exists out, boundary_concentrations t c b1 b2 fr old = Ret (IRM_OK, out) /\
     length out = (length b1 * length (c_comps c))%nat).
Proof.
  intros (Hco & Hgf & _). split; [by intros ->|]. intros Hne.
  destruct (boundaries_total t (conc_row c) (length (c_comps c)) b1 b2 fr (length b1) 0 ∅
              (resize (length (c_comps c) * length b1) 0 old)) as (out & E & L).
  { rewrite resize_length. lia. }
  { lia. }
  { intros s. by apply conc_row_total. }
  exists out. rewrite resize_length in L. split; [|lia]. unfold boundary_concentrations. destruct b1; [done|]. by rewrite E.
Qed.
Print Assumptions boundary_reports.

(** The share of a first solution that does not exist is not missing from the result: the call
    succeeds with the concentrations of the second solution alone. *)
Theorem boundary_missing_refuted t c n1 n2 f1 s2 old :
  cfg_ok c -> numbered t -> (0 <= n1)%Z -> (0 <= n2)%Z -> f1 < 1 ->
  d_sols t !! n1 = None -> d_sols t !! n2 = Some s2 -> sound s2 ->
  exists out, boundary_concentrations t c [n1] [n2] [f1] old = Ret (IRM_OK, out) /\
    forall k gf, c_gfw c !! k = Some gf -> exists y, out !! k = Some y /\
      moles_in (c_unit c) gf (s_dens s2) (s_vol s2) y = moles_of c k s2.
Proof.
  intros Hc Hn H1 H2 Hf E1 E2 Hs. pose proof Hc as (Hco & Hgf & _).
  assert (Hne : n1 <> n2) by congruence.
  assert (Hb : exists bin, one_boundary t [n1] [n2] [f1] 0 ∅ = Ret (bin, mix_parts [(s2, 1 - f1)] sol_zero)).
  { unfold one_boundary, vat. cbn [lookup list_lookup obind]. unfold first_number.
    destruct (Z.ltb_spec n1 0); [lia|].
    assert (Hg : (0 <=? n2)%Z && Qc_ltb 0 (1 - f1) = true).
    { apply andb_true_intro. split; [by apply Z.leb_le|]. apply Qc_ltb_true. by apply -> Qclt_minus_iff. }
    rewrite Hg. unfold fetch_first. rewrite lookup_empty. destruct (Z.leb_spec 0 n1); [|lia].
    unfold copy_solution. rewrite E1. unfold fetch_second. rewrite lookup_empty. unfold copy_solution. rewrite E2.
    eexists. f_equal. f_equal. unfold sol_mix. cbn [mix_add].
    assert (L1 : <[n2:=s2]> (∅ : gmap Z sol) !! n1 = None) by by rewrite lookup_insert_ne, lookup_empty.
    assert (L2 : <[n2:=s2]> (∅ : gmap Z sol) !! n2 = Some s2) by by rewrite lookup_insert.
    destruct (Z.eqb_spec n2 n1); [done|]. destruct (n2 <? n1)%Z; cbn [mix_found]; by rewrite L1, L2. }
  destruct Hb as [bin Hb].
  destruct (conc_row_total c (mix_parts [(s2, 1 - f1)] sol_zero) Hco Hgf) as (d & Ed & Ld).
  destruct (scatter_comps_spec 1 (length (c_comps c)) 0 d (length (c_comps c)) 0
              (resize (length (c_comps c) * 1) 0 old)) as (out & Eo & Lo & So).
  { rewrite resize_length. lia. }
  { lia. }
  { lia. }
  { lia. }
  exists out. split.
  { unfold boundary_concentrations. cbn [length boundaries]. rewrite Hb. cbn [obind fst snd]. rewrite Ed. cbn [obind].
    rewrite Eo. done. }
  intros k gf Hk.
  assert (Hkl : (k < length (c_comps c))%nat) by (destruct Hco as [_ <-]; by eapply lookup_lt_Some).
  assert (Hff : 0 < 1 - f1) by by apply -> Qclt_minus_iff.
  destruct (row_value c [(s2, 1 - f1)] d k gf Hc) as (y & Ey & Hy); [|by intros s' f' [= -> ->]%elem_of_list_singleton|done|done|].
  { apply proper_one; [done|]. apply Hs. }
  exists y. split.
  - replace k with (1 * k + 0)%nat by lia. rewrite So by lia. rewrite decide_True by lia. done.
  - cbn [weighted] in Hy. destruct Hs as (_ & Hm & _ & _). apply Qclt_ne in Hff, Hm. by apply lone_value in Hy.
Qed.
Print Assumptions boundary_missing_refuted.

(** When nothing is defined under any number asked for, the mixture has no volume at all, and the
    concentrations are divisions by zero reported as success. *)
Theorem boundary_nothing_refuted t c n1 old :
  cfg_ok c -> (exists m, stands_for t n1 m) -> numbered t ->
  (forall m, stands_for t n1 m -> d_sols t !! m = None) ->
  (exists bin s, one_boundary t [n1] [] [] 0 ∅ = Ret (bin, s) /\ s_vol s = 0 /\ s_mw s = 0) /\
  exists out, boundary_concentrations t c [n1] [] [] old = Ret (IRM_OK, out).
Proof.
  intros Hc [m Hm] Hn Hnone. split.
  2: { destruct (boundary_reports t c [n1] [] [] old Hc) as [_ H]. destruct H as (out & E & _); [done|]. by exists out. }
  destruct (first_number_spec t n1 m Hn Hm) as [Em Hm0].
  exists ∅, sol_zero. split; [|done]. unfold one_boundary, vat. cbn [lookup list_lookup obind]. rewrite Em.
  unfold fetch_first. rewrite lookup_empty. destruct (Z.leb_spec 0 m); [|lia].
  unfold copy_solution. rewrite (Hnone m Hm). cbn [Z.leb andb]. unfold sol_mix. cbn [mix_add mix_found].
  by rewrite lookup_empty.
Qed.
Print Assumptions boundary_nothing_refuted.

(** A negative number where nothing at all is defined gives pure water: 111.1 moles of hydrogen and
    55.55 of oxygen in a litre of density 1. *)
Theorem boundary_default t c n1 old :
  cfg_ok c -> (n1 < 0)%Z -> d_sols t = ∅ -> d_mixes t = [] ->
  exists out, boundary_concentrations t c [n1] [] [] old = Ret (IRM_OK, out) /\
    forall k gf, c_gfw c !! k = Some gf -> exists y, out !! k = Some y /\
      moles_in (c_unit c) gf 1 1 y = moles_of c k sol_default.
Proof.
  intros Hc Hn E1 E2. pose proof Hc as (Hco & Hgf & _).
  assert (Hb : exists bin, one_boundary t [n1] [] [] 0 ∅ = Ret (bin, mix_parts [(sol_default, 1)] sol_zero)).
  { unfold one_boundary, vat. cbn [lookup list_lookup obind]. unfold first_number. rewrite E1, E2.
    destruct (Z.ltb_spec n1 0); [|lia]. rewrite map_to_list_empty. cbn [fmap list_fmap next_number Z.eqb].
    destruct (Z.ltb_spec n1 (0 - 1)).
    - unfold fetch_first. rewrite lookup_empty. cbn [Z.sub Z.add Z.opp Z.leb Z.compare andb].
      eexists. reflexivity.
    - unfold fetch_first. rewrite lookup_empty. destruct (Z.leb_spec 0 n1); [lia|]. cbn [Z.leb Z.compare andb].
      eexists. f_equal. f_equal. unfold sol_mix. cbn [mix_add mix_found]. by rewrite lookup_insert. }
  destruct Hb as [bin Hb].
  destruct (conc_row_total c (mix_parts [(sol_default, 1)] sol_zero) Hco Hgf) as (d & Ed & Ld).
  destruct (scatter_comps_spec 1 (length (c_comps c)) 0 d (length (c_comps c)) 0
              (resize (length (c_comps c) * 1) 0 old)) as (out & Eo & Lo & So).
  { rewrite resize_length. lia. }
  { lia. }
  { lia. }
  { lia. }
  exists out. split.
  { unfold boundary_concentrations. cbn [length boundaries]. rewrite Hb. cbn [obind fst snd]. rewrite Ed. cbn [obind].
    rewrite Eo. done. }
  intros k gf Hk.
  assert (Hkl : (k < length (c_comps c))%nat) by (destruct Hco as [_ <-]; by eapply lookup_lt_Some).
  destruct (row_value c [(sol_default, 1)] d k gf Hc) as (y & Ey & Hy); [by apply proper_one| |done|done|].
  { intros s' f' [= -> ->]%elem_of_list_singleton. split_and!; [|done..]. split; [constructor|].
    intros n v Hin. by apply elem_of_nil in Hin. }
  exists y. split.
  - replace k with (1 * k + 0)%nat by lia. rewrite So by lia. rewrite decide_True by lia. done.
  - cbn [weighted] in Hy. by apply lone_value in Hy.
Qed.
Print Assumptions boundary_default.

(** A seawater-like and a freshwater-like solution in equal parts, and the sea alone. *)
Local Open Scope string_scope.
Definition two_sols : defined := Defined {[ 1%Z := sea; 2%Z := fresh_water ]} [].
Definition plain_cfg : cfg := Cfg MolL false ["H"; "O"; "Charge"; "Cl"] [1; qz 16; 1; Q2Qc (355 # 10)] true.
Example boundary_example :
  cfg_ok plain_cfg /\ numbered two_sols /\
  asked two_sols [1; -5]%Z [2]%Z [q 1 2] 0 [(sea, q 1 2); (fresh_water, 1 - q 1 2)] /\
  asked two_sols [1; -5]%Z [2]%Z [q 1 2] 1 [(fresh_water, 1)] /\
  proper [(sea, q 1 2); (fresh_water, 1 - q 1 2)] /\ sound sea /\ sound fresh_water /\
  exists out, boundary_concentrations two_sols plain_cfg [1; -5]%Z [2]%Z [q 1 2] [] = Ret (IRM_OK, out) /\
    out !! 6%nat = Some (q 1 6).
Proof.
  assert (Hk : forall k, known two_sols k -> k = 1%Z \/ k = 2%Z).
  { intros k [[s H]|H]; [|by apply elem_of_nil in H]. unfold two_sols in H. cbn [d_sols] in H.
    destruct (decide (k = 1%Z)); [by left|]. destruct (decide (k = 2%Z)); [by right|].
    rewrite lookup_insert_ne, lookup_singleton_ne in H by done. done. }
  assert (L1 : d_sols two_sols !! 1%Z = Some sea) by reflexivity.
  assert (L2 : d_sols two_sols !! 2%Z = Some fresh_water) by reflexivity.
  split_and!.
  - split_and!; [split; [by apply Nat.leb_le|done]|by repeat constructor| |].
    + apply NoDup_singleton.
    + apply Forall_singleton. split_and!; try done. intros H. by apply H.
  - intros k Hk'. apply Hk in Hk' as [-> | ->]; lia.
  - apply (AskTwo two_sols [1; -5]%Z [2]%Z [q 1 2] 0 1 1 sea 2 fresh_water); [done|by left|done| |done].
    split_and!; [done|done|by vm_compute].
  - apply (AskOne two_sols [1; -5]%Z [2]%Z [q 1 2] 1 (-5) 2 fresh_water); [done| |done|].
    + right. split; [lia|]. split; [left; by exists fresh_water|]. intros k Hk'. apply Hk in Hk' as [-> | ->]; lia.
    + intros n (H & _). done.
  - split.
    + intros s f H. rewrite !elem_of_cons, elem_of_nil in H.
      destruct H as [[= -> ->]|[[= -> ->]|[]]]; split; by vm_compute.
    + exists sea, (q 1 2). split; [left|by vm_compute].
  - split_and!; [|by vm_compute..]. split; [apply ordb_ordered; by vm_compute|].
    intros n v H. unfold amount in H. cbn [s_totals sea] in H. rewrite !elem_of_cons, elem_of_nil in H.
    destruct H as [[= -> _]|[[= -> _]|[]]]; (split; [by repeat split|by left]).
  - split_and!; [|by vm_compute..]. split; [apply ordb_ordered; by vm_compute|].
    intros n v H. unfold amount in H. cbn [s_totals fresh_water] in H. rewrite !elem_of_cons, elem_of_nil in H.
    destruct_or!; try done; injection H as -> _; (split; [by repeat split|by left]).
  - eexists. split; [vm_compute; reflexivity|]. cbn [lookup list_lookup]. f_equal. qc.
Qed.
(** The sea mixed with a solution 7 that does not exist: the concentration of the sea itself. *)
Example boundary_missing_example :
  exists out, boundary_concentrations two_sols plain_cfg [7]%Z [1]%Z [q 3 4] [] = Ret (IRM_OK, out) /\
    out !! 3%nat = Some (q 1 2).
Proof. eexists. split; [vm_compute; reflexivity|]. cbn [lookup list_lookup]. f_equal. qc. Qed.
(** Solution 1 and a MIX 5 that was not kept as a solution: a negative number means 5. *)
Example boundary_nothing_example :
  let t := Defined {[ 1%Z := sea ]} [5]%Z in
  stands_for t (-1) 5 /\ numbered t /\ (forall m, stands_for t (-1) m -> d_sols t !! m = None).
Proof.
  cbn zeta. assert (Hk : forall k, known (Defined {[ 1%Z := sea ]} [5]%Z) k -> k = 1%Z \/ k = 5%Z).
  { intros k [[s H]|H].
    - cbn [d_sols] in H. apply lookup_singleton_Some in H as [<- _]. by left.
    - right. by apply elem_of_list_singleton in H. }
  assert (H5 : known (Defined {[ 1%Z := sea ]} [5]%Z) 5) by (right; left).
  split_and!.
  - right. split; [lia|]. split; [done|]. intros k H. apply Hk in H as [-> | ->]; lia.
  - intros k H. apply Hk in H as [-> | ->]; lia.
  - intros m [[H _]|(_ & Hm & Hmax)]; [lia|]. apply Hmax in H5. apply Hk in Hm as [-> | ->]; [lia|reflexivity].
Qed.

(** ** C62 *)

(** Species numbers as FindComponents leaves them: each known species has its own place. *)
Definition indexed (index : gmap Z nat) (w : nat) (parts : list (sol * Qc)) : Prop :=
  (forall s f n, (s, f) ∈ parts -> is_Some (s_species s !! n) -> exists j, index !! n = Some j /\ (j < w)%nat) /\
  (forall n n' j, index !! n = Some j -> index !! n' = Some j -> n = n').

Lemma species_row_total index w s : (0 < w)%nat -> (forall n j, index !! n = Some j -> (j < w)%nat) ->
  exists d, species_row index w s = Ret d /\ length d = w.
Proof.
  intros Hw Hi. unfold species_row.
  assert (H : forall l d, length d = w -> exists d', put_species index l d = Ret d' /\ length d' = w).
  { induction l as [|[n x] l IH]; intros d Hd; cbn [put_species]; [by exists d|].
    unfold vset. rewrite decide_True.
    - cbn [obind]. apply IH. by rewrite insert_length.
    - rewrite Hd. destruct (index !! n) as [j|] eqn:E; [by apply (Hi n)|done]. }
  apply H. apply replicate_length.
Qed.

(** Every species listed in all parts of a boundary condition stands in its place with its
    average by mass of water; places of species that no part has are 0. *)
Theorem boundary_species_values t index w b1 b2 fr old :
  numbered t -> b1 <> [] -> (0 < w)%nat -> (forall n j, index !! n = Some j -> (j < w)%nat) ->
  (forall i, (i < length b1)%nat -> exists parts, asked t b1 b2 fr i parts) ->
  exists out, boundary_species t index w b1 b2 fr old = Ret (IRM_OK, out) /\
    length out = (length b1 * w)%nat /\
    forall i parts, asked t b1 b2 fr i parts -> indexed index w parts ->
      (forall s f, (s, f) ∈ parts -> 0 < f /\ 0 < s_mw s) ->
      (forall n j, index !! n = Some j -> (forall s f, (s, f) ∈ parts -> is_Some (s_species s !! n)) ->
         out !! (j * length b1 + i)%nat =
         Some (weighted (fun s => s_mw s * default 0 (s_species s !! n)) parts / weighted s_mw parts)) /\
      (forall j, (j < w)%nat ->
         (forall s f n, (s, f) ∈ parts -> is_Some (s_species s !! n) -> index !! n <> Some j) ->
         out !! (j * length b1 + i)%nat = Some 0).
Proof.
  intros Hn Hne Hw Hi Hask.
  destruct (boundaries_spec t (species_row index w) w b1 b2 fr (length b1) 0 ∅
              (resize (w * length b1) 0 old)) as (out & E & L & _ & V); [done|..].
  { intros n s _ H. by rewrite lookup_empty in H. }
  { rewrite resize_length. lia. }
  { lia. }
  { intros j Hj. apply Hask. lia. }
  { intros s. by apply species_row_total. }
  exists out. rewrite resize_length in L. split_and!.
  - unfold boundary_species. destruct b1; [done|]. destruct w; [lia|]. by rewrite E.
  - lia.
  - intros i parts Ha [X1 X2] Hpos.
    assert (Hil : (i < length b1)%nat) by (destruct Ha; by eapply lookup_lt_Some).
    destruct (V i parts) as (ps & d & (W & _ & F & Hps & Hpf) & Ed & Vk); [lia|done|].
    assert (Hpos' : forall s f, (s, f) ∈ ps -> 0 < f /\ 0 < s_mw s).
    { intros s f Hin. split.
      - apply (Hpf (fun s f H => proj1 (Hpos s f H)) s f Hin).
      - destruct (F s f Hin) as [f' Hin']. by apply (Hpos s f'). }
    assert (Hsub : forall n, is_Some (s_species (mix_parts ps sol_zero) !! n) ->
       exists s f, (s, f) ∈ parts /\ is_Some (s_species s !! n)).
    { intros n Hsome. apply mix_species_from in Hsome as [[x Hx]|(s & f & Hin & Hsome)].
      - cbn [sol_zero s_species] in Hx. by rewrite lookup_empty in Hx.
      - destruct (F s f Hin) as [f' Hin']. by exists s, f'. }
    unfold species_row in Ed.
    destruct (put_species_spec index (by_number (s_species (mix_parts ps sol_zero))) (replicate w 0))
      as (d' & E' & L' & S1 & S2).
    { apply by_number_nodup. }
    { intros n x Hin. apply by_number_elem in Hin. destruct (Hsub n) as (s & f & Hp & Hsome); [by exists x|].
      destruct (X1 s f n Hp Hsome) as (j & Hj & Hjw). exists j. by rewrite replicate_length. }
    { intros n n' x x' j _ _ H1 H2. by apply (X2 n n' j). }
    rewrite E' in Ed. injection Ed as ->. split.
    + intros n j Hj Hall. assert (Hjw : (j < w)%nat) by by apply (Hi n).
      rewrite (Nat.mul_comm j), Vk by done.
      pose proof (species_average ps n Hps) as Hav.
      assert (Hall' : forall s f, (s, f) ∈ ps -> is_Some (s_species s !! n)).
      { intros s f Hin. destruct (F s f Hin) as [f' Hin']. by apply (Hall s f'). }
      assert (Hs : is_Some (s_species (mix_parts ps sol_zero) !! n)) by (apply mix_species_some; [done|]; intros s f Hin; split; [by apply (Hpos' s f)|by apply (Hall' s f)]).
      destruct Hs as [x Hx]. rewrite (S1 n x j); [|by apply by_number_elem|done]. f_equal.
      unfold species in Hav. rewrite Hx in Hav. cbn [default] in Hav. unfold id in Hav at 1.
      rewrite Hav.
      * by rewrite W, W.
      * intros s f Hin. destruct (Hpos' s f Hin). split_and!; [done|done|by apply (Hall' s f)].
    + intros j Hjw Hno. rewrite (Nat.mul_comm j), Vk by done. rewrite S2.
      * by apply lookup_replicate_2.
      * intros n x Hin. apply by_number_elem in Hin. destruct (Hsub n) as (s & f & Hp & Hsome); [by exists x|].
        by apply (Hno s f n).
Qed.
Print Assumptions boundary_species_values.

(** The call reports success exactly for at least one boundary condition and one species; otherwise
    it reports failure and leaves the destination alone. *)
Theorem boundary_species_status t index w b1 b2 fr old r out :
  boundary_species t index w b1 b2 fr old = Ret (r, out) ->
  (r = IRM_OK <-> b1 <> [] /\ w <> 0%nat) /\
  (r <> IRM_OK -> r = IRM_FAIL /\ out = old).
Proof.
  unfold boundary_species. intros H. destruct b1 as [|k b1]; [simplify_eq; naive_solver|].
  destruct w as [|w]; [simplify_eq; naive_solver|].
  destruct (boundaries _ _ _ _ _ _ _ _ _) in H; cbn [obind] in H; simplify_eq. naive_solver.
Qed.
Print Assumptions boundary_species_status.
Example boundary_species_status_example :
  boundary_species two_sols ∅ 2 [] [] [] [q 1 2] = Ret (IRM_FAIL, [q 1 2]).
Proof. reflexivity. Qed.

(** A species number that is not in the table takes the place of the first species, here species
    [m], of which the solution has nothing. *)
Theorem boundary_species_refuted t index k s n m x old :
  (0 <= k)%Z -> d_sols t !! k = Some s -> s_species s = {[ n := x ]} ->
  index !! n = None -> index !! m = Some 0%nat ->
  exists out, boundary_species t index 2 [k] [] [] old = Ret (IRM_OK, out) /\
    s_species s !! m = None /\ out !! 0%nat = Some x.
Proof.
  intros Hk Hs Hsp Hn Hm.
  assert (Hb : one_boundary t [k] [] [] 0 ∅ = Ret (<[k := s]> ∅, mix_parts [(s, 1)] sol_zero)).
  { unfold one_boundary, vat. cbn [lookup list_lookup obind]. unfold first_number.
    destruct (Z.ltb_spec k 0); [lia|]. unfold fetch_first. rewrite lookup_empty.
    destruct (Z.leb_spec 0 k); [|lia]. unfold copy_solution. rewrite Hs. cbn [Z.leb Z.compare andb].
    f_equal. f_equal. unfold sol_mix. cbn [mix_add mix_found]. by rewrite lookup_insert. }
  assert (Hr : species_row index 2 (mix_parts [(s, 1)] sol_zero) = Ret [x; 0]).
  { unfold species_row, mix_parts. cbn [fold_left fst snd]. unfold sol_add.
    rewrite (proj2 (Qc_zerob_false 1)) by done. cbn [s_species sol_zero]. unfold add_species.
    rewrite (left_id_L ∅ (union_with _)), Hsp. unfold by_number. rewrite map_to_list_singleton.
    cbn [merge_sort]. cbn. by rewrite Hn. }
  assert (Hl : length (resize (2 * 1) (0 : Qc) old) = 2%nat) by by rewrite resize_length.
  destruct (resize (2 * 1) (0 : Qc) old) as [|u [|v [|? ?]]] eqn:Er; try done.
  exists [x; 0]. split_and!; [|by rewrite Hsp, lookup_singleton_ne by congruence|done].
  unfold boundary_species. cbn [length]. rewrite Er. cbn [boundaries]. rewrite Hb. cbn [obind fst snd].
  rewrite Hr. reflexivity.
Qed.
Print Assumptions boundary_species_refuted.
Example boundary_species_example :
  let index : gmap Z nat := {[ 7%Z := 0%nat; 9%Z := 1%nat ]} in
  indexed index 2 [(sea, q 1 2); (fresh_water, 1 - q 1 2)] /\
  exists out, boundary_species two_sols index 2 [1; -5]%Z [2]%Z [q 1 2] [] = Ret (IRM_OK, out) /\
    out !! 1%nat = Some 0 /\ out !! 3%nat = Some (q 6 1).
Proof.
  cbn zeta. split.
  - split.
    + intros s f n H [x Hx]. rewrite !elem_of_cons, elem_of_nil in H.
      destruct H as [[= -> ->]|[[= -> ->]|[]]]; cbn [s_species sea fresh_water] in Hx;
        apply lookup_singleton_Some in Hx as [<- _].
      * exists 0%nat. split; [reflexivity|lia].
      * exists 1%nat. split; [reflexivity|lia].
    + intros n n' j H1 H2.
      assert (Hc : forall a, ({[ 7%Z := 0%nat; 9%Z := 1%nat ]} : gmap Z nat) !! a = Some j ->
                 (a = 7%Z /\ j = 0%nat) \/ (a = 9%Z /\ j = 1%nat)).
      { intros a H. destruct (decide (a = 7%Z)) as [-> | H7]; [left; by injection H as <-|].
        rewrite lookup_insert_ne in H by done. apply lookup_singleton_Some in H as [<- <-]. by right. }
      apply Hc in H1, H2. lia.
  - eexists. split; [vm_compute; reflexivity|]. cbn [lookup list_lookup]. split; f_equal; qc.
Qed.
