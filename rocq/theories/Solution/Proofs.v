From Coq Require Import String QArith Qcanon Permutation.
From stdpp Require Import prelude strings gmap.
From Verif.Names Require Import Model Spec Proofs.
From Verif.Solution Require Import Model Spec.
Local Open Scope Qc_scope.

(** ** Rational arithmetic *)
Lemma Qc_zerob_true x : Qc_zerob x = true <-> x = 0.
Proof.
  unfold Qc_zerob. rewrite Qeq_bool_iff. split.
  - intros H. apply Qc_is_canon. exact H.
  - intros ->. reflexivity.
Qed.
Lemma Qc_zerob_false x : Qc_zerob x = false <-> x <> 0.
Proof. rewrite <- Qc_zerob_true. by destruct (Qc_zerob x). Qed.
Lemma Qc_oneb_true x : Qeq_bool (this x) 1 = true <-> x = 1.
Proof.
  rewrite Qeq_bool_iff. split.
  - intros H. apply Qc_is_canon. exact H.
  - intros ->. reflexivity.
Qed.
Lemma Qc_ltb_true x y : Qc_ltb x y = true <-> x < y.
Proof.
  unfold Qc_ltb, Qclt. rewrite negb_true_iff, <- not_true_iff_false, Qle_bool_iff. split.
  - apply Qnot_le_lt.
  - apply Qlt_not_le.
Qed.
Lemma Qc_ltb_false x y : Qc_ltb x y = false <-> y <= x.
Proof.
  rewrite <- not_true_iff_false, Qc_ltb_true. split; [apply Qcnot_lt_le|apply Qcle_not_lt].
Qed.
Lemma Qcplus_nonneg x y : 0 <= x -> 0 <= y -> 0 <= x + y.
Proof. intros H1 H2. replace 0 with (0 + 0) by ring. by apply Qcplus_le_compat. Qed.
Lemma Qcmult_nonneg x y : 0 <= x -> 0 <= y -> 0 <= x * y.
Proof. intros H1 H2. replace 0 with (0 * y) by ring. by apply Qcmult_le_compat_r. Qed.
Lemma Qcmult_pos x y : 0 < x -> 0 < y -> 0 < x * y.
Proof. intros H1 H2. replace 0 with (0 * y) by ring. by apply Qcmult_lt_compat_r. Qed.
Lemma Qcplus_pos_l x y : 0 < x -> 0 <= y -> 0 < x + y.
Proof.
  intros H1 H2. eapply Qclt_le_trans; [exact H1|]. replace x with (x + 0) at 1 by ring.
  apply Qcplus_le_compat; [apply Qcle_refl|done].
Qed.
Lemma Qcplus_pos_r x y : 0 <= x -> 0 < y -> 0 < x + y.
Proof. intros. rewrite Qcplus_comm. by apply Qcplus_pos_l. Qed.
Lemma Qclt_ne x y : x < y -> y <> x.
Proof. intros H ->. by apply Qclt_not_eq in H. Qed.
Lemma Qcle_ne_lt x y : x <= y -> y <> x -> x < y.
Proof. intros H1 H2. apply Qcle_lt_or_eq in H1 as [?|?]; [done|]. by subst. Qed.

(** ** Names *)
Lemma listed_none l n : ~ named l n -> listed l n = 0.
Proof.
  induction l as [|[m v] l IH]; intros H; simpl; [done|]. rewrite decide_False.
  - apply IH. intros [w Hw]. apply H. exists w. by right.
  - intros ->. apply H. exists v. by left.
Qed.
Lemma listed_some l n v : ordered l -> (n, v) ∈ l -> listed l n = v.
Proof.
  induction l as [|[m w] l IH]; intros Ho Hin; [by apply elem_of_nil in Hin|]. simpl.
  apply ordered_cons in Ho as [Ho Hb]. apply elem_of_cons in Hin as [[= -> ->]|Hin].
  - rewrite decide_True by done. rewrite listed_none; [ring|].
    intros [x Hx]. by apply Hb, before_irrefl in Hx.
  - rewrite decide_False; [by apply IH|]. intros ->. by apply Hb, before_irrefl in Hin.
Qed.
Lemma listed_find l n : ordered l ->
  listed l n = match nd_find n l with Some x => x | None => 0 end.
Proof.
  intros Ho. destruct (nd_find n l) as [x|] eqn:E.
  - apply listed_some; [done|]. by apply nd_find_some.
  - apply listed_none. intros [v Hv]. by apply (proj1 (nd_find_none _ _ Ho) E v).
Qed.
Lemma nd_find_set {V} k (x : V) l n : ordered l ->
  nd_find n (nd_set k x l) = if decide (n = k) then Some x else nd_find n l.
Proof.
  intros Ho. assert (Ho' : ordered (nd_set k x l)) by by apply nd_set_ordered.
  case_decide as Hd.
  - subst. apply nd_find_some; [done|]. apply nd_set_elem; [done|]. by left.
  - destruct (nd_find n l) as [y|] eqn:E.
    + apply nd_find_some; [done|]. apply nd_set_elem; [done|]. right. split; [done|].
      by apply nd_find_some.
    + apply nd_find_none; [done|]. intros v Hv. apply nd_set_elem in Hv; [|done].
      destruct Hv as [[? _]|[_ Hv]]; [done|]. by apply (proj1 (nd_find_none _ _ Ho) E v).
Qed.
Lemma listed_set k x l n : ordered l ->
  listed (nd_set k x l) n = if decide (n = k) then x else listed l n.
Proof.
  intros Ho. rewrite !listed_find by (done || by apply nd_set_ordered). rewrite nd_find_set by done.
  by case_decide.
Qed.

Definition ext_step (f : Qc) (acc : nmap Qc) (p : string * Qc) : nmap Qc :=
  match nd_find p.1 acc with
  | Some y => nd_set p.1 (y + p.2 * f) acc
  | None => nd_set p.1 (p.2 * f) acc
  end.
Lemma ext_step_ordered f acc p : ordered acc -> ordered (ext_step f acc p).
Proof. intros H. unfold ext_step. destruct (nd_find _ _); by apply nd_set_ordered. Qed.
Lemma ext_fold_ordered f l acc : ordered acc -> ordered (fold_left (ext_step f) l acc).
Proof.
  revert acc. induction l as [|p l IH]; intros acc H; [done|]. simpl. by apply IH, ext_step_ordered.
Qed.
Lemma ext_fold_listed f l acc n : ordered acc ->
  listed (fold_left (ext_step f) l acc) n = listed acc n + f * listed l n.
Proof.
  revert acc. induction l as [|[m v] l IH]; intros acc Ho; simpl; [ring|].
  rewrite IH by by apply ext_step_ordered.
  assert (E : listed (ext_step f acc (m, v)) n = listed acc n + if decide (m = n) then f * v else 0).
  { unfold ext_step. cbn [fst snd]. pose proof (listed_find acc m Ho) as Hm.
    destruct (nd_find m acc) as [y|]; rewrite listed_set by done;
      destruct (decide (n = m)) as [->|Hne]; rewrite ?decide_True by done;
      rewrite ?(decide_False (P := m = n)) by congruence; rewrite ?Hm; ring. }
  rewrite E. destruct (decide (m = n)); ring.
Qed.
Lemma add_extensive_listed z a f l n : ordered l -> (z = true -> f = 0) ->
  listed (nd_add_extensive Qcplus Qcmult z a f l) n = listed l n + f * listed a n.
Proof.
  intros Ho Hz. unfold nd_add_extensive. destruct z.
  - rewrite Hz by done. ring.
  - by apply (ext_fold_listed f a l n).
Qed.
Lemma add_extensive_ordered z a f l : ordered l -> ordered (nd_add_extensive Qcplus Qcmult z a f l).
Proof. intros Ho. unfold nd_add_extensive. destruct z; [done|]. by apply (ext_fold_ordered f a l). Qed.

(** ** Mixtures: sums *)
Lemma sol_add_extensive g a x s : g ∈ extensive -> g (sol_add a x s) = g s + x * g a.
Proof.
  unfold extensive. intros H. unfold sol_add. destruct (Qc_zerob x) eqn:E.
  - apply Qc_zerob_true in E. subst. ring.
  - rewrite !elem_of_cons, elem_of_nil in H. destruct_or!; try done; subst g; simpl; ring.
Qed.
Lemma mix_parts_extensive g parts s : g ∈ extensive -> g (mix_parts parts s) = g s + weighted g parts.
Proof.
  intros Hg. unfold mix_parts. revert s. induction parts as [|[a x] parts IH]; intros s; simpl; [ring|].
  rewrite IH, sol_add_extensive by done. ring.
Qed.
Lemma sol_add_tidy a x s : tidy s -> tidy (sol_add a x s).
Proof.
  unfold tidy, sol_add. intros H. destruct (Qc_zerob x); [done|].
  cbn [s_totals]. by apply add_extensive_ordered.
Qed.
Lemma sol_add_totals a x s n : tidy s ->
  listed (s_totals (sol_add a x s)) n = listed (s_totals s) n + x * listed (s_totals a) n.
Proof.
  intros H. unfold sol_add. destruct (Qc_zerob x) eqn:E.
  - apply Qc_zerob_true in E. subst. ring.
  - cbn [s_totals]. rewrite add_extensive_listed; [ring|done|done].
Qed.
Lemma mix_parts_totals parts s n : tidy s ->
  listed (s_totals (mix_parts parts s)) n =
  listed (s_totals s) n + weighted (fun a => listed (s_totals a) n) parts.
Proof.
  unfold mix_parts. revert s. induction parts as [|[a x] parts IH]; intros s Hs; simpl; [ring|].
  rewrite IH by by apply sol_add_tidy. rewrite sol_add_totals by done. ring.
Qed.
Lemma mix_parts_tidy parts s : tidy s -> tidy (mix_parts parts s).
Proof.
  unfold mix_parts. revert s. induction parts as [|[a x] parts IH]; intros s Hs; simpl; [done|].
  by apply IH, sol_add_tidy.
Qed.

(** ** Mixtures: averages *)
Lemma sol_add_intensive g a x s : g ∈ intensive -> 0 <= s_mw s -> 0 <= x -> (x <> 0 -> 0 < s_mw a) ->
  s_mw (sol_add a x s) * g (sol_add a x s) = s_mw s * g s + x * (s_mw a * g a).
Proof.
  intros Hg H1 H2 H3. unfold sol_add. destruct (Qc_zerob x) eqn:E.
  { apply Qc_zerob_true in E. subst. ring. }
  apply Qc_zerob_false in E. specialize (H3 E).
  assert (Hx : 0 < x) by by apply Qcle_ne_lt.
  assert (Hd : s_mw s + s_mw a * x <> 0).
  { apply Qclt_ne, Qcplus_pos_r; [done|by apply Qcmult_pos]. }
  unfold intensive in Hg. rewrite !elem_of_cons, elem_of_nil in Hg.
  destruct_or!; try done; subst g; simpl; field; done.
Qed.
Lemma mw_nonneg parts s : 0 <= s_mw s ->
  (forall a x, (a, x) ∈ parts -> 0 <= x /\ (x <> 0 -> 0 < s_mw a)) -> 0 <= s_mw (mix_parts parts s).
Proof.
  intros Hs Hp. rewrite (mix_parts_extensive s_mw); [|set_solver]. apply Qcplus_nonneg; [done|].
  induction parts as [|[a x] parts IH]; simpl; [apply Qcle_refl|]. apply Qcplus_nonneg.
  - destruct (Hp a x) as [H1 H2]; [by left|]. destruct (Qc_eq_dec x 0) as [->|Hx].
    + replace (0 * s_mw a) with 0 by ring. apply Qcle_refl.
    + apply Qcmult_nonneg; [done|]. by apply Qclt_le_weak, H2.
  - apply IH. intros b y Hin. apply (Hp b y). by right.
Qed.
Lemma mix_parts_intensive g parts s : g ∈ intensive -> 0 <= s_mw s ->
  (forall a x, (a, x) ∈ parts -> 0 <= x /\ (x <> 0 -> 0 < s_mw a)) ->
  s_mw (mix_parts parts s) * g (mix_parts parts s) =
  s_mw s * g s + weighted (fun a => s_mw a * g a) parts.
Proof.
  intros Hg. unfold mix_parts. revert s. induction parts as [|[a x] parts IH]; intros s Hs Hp; simpl; [ring|].
  destruct (Hp a x) as [H1 H2]; [by left|].
  rewrite IH; [rewrite sol_add_intensive by done; ring| |].
  - rewrite (sol_add_extensive s_mw); [|set_solver]. apply Qcplus_nonneg; [done|].
    destruct (Qc_eq_dec x 0) as [->|Hx].
    + replace (0 * s_mw a) with 0 by ring. apply Qcle_refl.
    + apply Qcmult_nonneg; [done|]. by apply Qclt_le_weak, H2.
  - intros b y Hin. apply (Hp b y). by right.
Qed.

Lemma weighted_pos g parts :
  (forall s f, (s, f) ∈ parts -> 0 <= f /\ (f <> 0 -> 0 < g s)) ->
  (exists s f, (s, f) ∈ parts /\ f <> 0) -> 0 < weighted g parts.
Proof.
  intros Hp (s & f & Hin & Hf).
  assert (Hn : 0 <= weighted g parts /\ (exists s f, (s, f) ∈ parts /\ f <> 0) -> 0 <= weighted g parts) by tauto.
  clear Hn. induction parts as [|[a x] parts IH]; [by apply elem_of_nil in Hin|]. simpl.
  assert (Hge : forall parts, (forall s f, (s, f) ∈ parts -> 0 <= f /\ (f <> 0 -> 0 < g s)) -> 0 <= weighted g parts).
  { clear. induction parts as [|[a x] parts IH]; intros Hp; simpl; [apply Qcle_refl|].
    destruct (Hp a x) as [H1 H2]; [by left|]. apply Qcplus_nonneg.
    - destruct (Qc_eq_dec x 0) as [->|Hx].
      + replace (0 * g a) with 0 by ring. apply Qcle_refl.
      + apply Qcmult_nonneg; [done|]. by apply Qclt_le_weak, H2.
    - apply IH. intros b y Hb. apply (Hp b y). by right. }
  destruct (Hp a x) as [H1 H2]; [by left|].
  assert (Hp' : forall s f, (s, f) ∈ parts -> 0 <= f /\ (f <> 0 -> 0 < g s)).
  { intros b y Hb. apply (Hp b y). by right. }
  apply elem_of_cons in Hin as [[= -> ->]|Hin].
  - apply Qcplus_pos_l; [|by apply Hge]. apply Qcmult_pos; [by apply Qcle_ne_lt|by apply H2].
  - apply Qcplus_pos_r; [|by apply IH]. destruct (Qc_eq_dec x 0) as [->|Hx].
    + replace (0 * g a) with 0 by ring. apply Qcle_refl.
    + apply Qcmult_nonneg; [done|]. by apply Qclt_le_weak, H2.
Qed.

Lemma weighted_perm g parts parts' : Permutation parts parts' -> weighted g parts = weighted g parts'.
Proof.
  induction 1 as [|[a x] l l' _ IH|[a x] [b y] l|l l' l'' _ IH1 _ IH2]; simpl; [done|by rewrite IH|ring|congruence].
Qed.

Lemma weighted_le g h parts :
  (forall s f, (s, f) ∈ parts -> 0 <= f /\ (f <> 0 -> g s <= h s)) -> weighted g parts <= weighted h parts.
Proof.
  induction parts as [|[a x] parts IH]; intros Hp; simpl; [apply Qcle_refl|].
  destruct (Hp a x) as [H1 H2]; [by left|]. apply Qcplus_le_compat.
  - destruct (Qc_eq_dec x 0) as [->|Hx].
    + replace (0 * g a) with 0 by ring. replace (0 * h a) with 0 by ring. apply Qcle_refl.
    + rewrite !(Qcmult_comm x). apply Qcmult_le_compat_r; [by apply H2|done].
  - apply IH. intros b y Hb. apply (Hp b y). by right.
Qed.
Lemma weighted_scale c g parts : weighted (fun s => c * g s) parts = c * weighted g parts.
Proof. induction parts as [|[a x] parts IH]; simpl; [ring|]. rewrite IH. ring. Qed.

Lemma Qcmult_le_l_inv w x y : 0 < w -> w * x <= w * y -> x <= y.
Proof.
  intros Hw H. apply Qcmult_lt_0_le_reg_r with w; [done|]. by rewrite !(Qcmult_comm _ w).
Qed.

(** ** Isotopes *)
Definition iso_step (f2 x : Qc) (acc : nmap iso) (p : string * iso) : nmap iso :=
  match nd_find p.1 acc with
  | Some i =>
      nd_set p.1 (Iso (i_total i + i_total p.2 * x) (i_ratio i + i_ratio p.2 * f2)
                      (i_unc i + i_unc p.2 * f2) (i_uncdef i || i_uncdef p.2)) acc
  | None => nd_set p.1 (Iso (i_total p.2 * x) (i_ratio p.2) (i_unc p.2) (i_uncdef p.2)) acc
  end.
Lemma iso_step_ordered f2 x acc p : ordered acc -> ordered (iso_step f2 x acc p).
Proof. intros H. unfold iso_step. destruct (nd_find _ _); by apply nd_set_ordered. Qed.
Lemma add_isotopes_ordered old f2 x acc : ordered acc -> ordered (add_isotopes old f2 x acc).
Proof.
  change (add_isotopes old f2 x acc) with (fold_left (iso_step f2 x) old acc). revert acc.
  induction old as [|p old IH]; intros acc H; [done|]. simpl. by apply IH, iso_step_ordered.
Qed.
Lemma nd_find_cons_ne {V} n m (v : V) l : ordered ((m, v) :: l) -> n <> m -> nd_find n ((m, v) :: l) = nd_find n l.
Proof.
  intros Ho Hne. simpl. destruct (scmp_spec n m) as [H|H|H]; [|done..].
  symmetry. apply ordered_cons in Ho as [Ho Hb]. apply nd_find_none; [done|]. intros w Hw.
  apply Hb in Hw. by apply before_asym in Hw.
Qed.
Lemma nd_find_cons_eq {V} m (v : V) l : nd_find m ((m, v) :: l) = Some v.
Proof. simpl. by rewrite (proj2 (scmp_eq m m) eq_refl). Qed.
Lemma add_isotopes_find old f2 x acc n : ordered old -> ordered acc ->
  nd_find n (add_isotopes old f2 x acc) =
  match nd_find n old with
  | None => nd_find n acc
  | Some p =>
      Some match nd_find n acc with
           | Some i => Iso (i_total i + i_total p * x) (i_ratio i + i_ratio p * f2)
                           (i_unc i + i_unc p * f2) (i_uncdef i || i_uncdef p)
           | None => Iso (i_total p * x) (i_ratio p) (i_unc p) (i_uncdef p)
           end
  end.
Proof.
  change (add_isotopes old f2 x acc) with (fold_left (iso_step f2 x) old acc). revert acc.
  induction old as [|[m i] old IH]; intros acc Ho Ha; [done|].
  cbn [fold_left]. pose proof Ho as [Ho' Hb]%ordered_cons. rewrite IH by (done || by apply iso_step_ordered).
  destruct (decide (n = m)) as [->|Hne].
  - rewrite nd_find_cons_eq.
    assert (E : nd_find m old = None).
    { apply nd_find_none; [done|]. intros w Hw. by apply Hb, before_irrefl in Hw. }
    rewrite E. unfold iso_step. cbn [fst snd].
    destruct (nd_find m acc); rewrite nd_find_set by done; by rewrite decide_True by done.
  - rewrite nd_find_cons_ne by done.
    assert (E : nd_find n (iso_step f2 x acc (m, i)) = nd_find n acc).
    { unfold iso_step. cbn [fst snd]. destruct (nd_find m acc); rewrite nd_find_set by done;
        by rewrite decide_False by done. }
    by rewrite E.
Qed.

Lemma iso_halves s n i : ordered (s_iso s) -> 0 < s_mw s -> nd_find n (s_iso s) = Some i ->
  exists j, nd_find n (s_iso (mix_parts [(s, Q2Qc (1 # 2)); (s, Q2Qc (1 # 2))] sol_zero)) = Some j /\
    i_ratio j = Q2Qc (3 # 2) * i_ratio i.
Proof.
  intros Ho Hw Hi. set (h := Q2Qc (1 # 2)).
  assert (Hh : Qc_zerob h = false) by done.
  cbn [mix_parts fold_left fst snd]. unfold sol_add at 1. rewrite Hh. cbn [s_iso].
  set (s1 := sol_add s h sol_zero).
  assert (E1 : nd_find n (s_iso s1) = Some (Iso (i_total i * h) (i_ratio i) (i_unc i) (i_uncdef i))).
  { unfold s1, sol_add. rewrite Hh. cbn [s_iso].
    rewrite add_isotopes_find by (done || constructor). by rewrite Hi. }
  assert (O1 : ordered (s_iso s1)).
  { unfold s1, sol_add. rewrite Hh. cbn [s_iso]. apply add_isotopes_ordered. constructor. }
  rewrite add_isotopes_find by done. rewrite Hi, E1. eexists. split; [reflexivity|]. cbn [i_ratio].
  assert (Hm : s_mw s1 = s_mw s * h).
  { unfold s1, sol_add. rewrite Hh. cbn [s_mw sol_zero]. ring. }
  rewrite Hm. assert (Hf : s_mw s * h / (s_mw s * h + s_mw s * h) = h).
  { unfold h. assert (s_mw s <> 0) by by apply Qclt_ne.
    transitivity (s_mw s * h / (s_mw s * 1)); [f_equal; unfold h; rewrite <- Qcmult_plus_distr_r; f_equal; by apply Qc_is_canon|].
    unfold h. field. done. }
  rewrite Hf. unfold h. assert (E : Q2Qc (3 # 2) = 1 + Q2Qc (1 # 2)) by by apply Qc_is_canon.
  rewrite E. ring.
Qed.

(** ** Species *)
Definition species (k : Z) (s : sol) : Qc := default 0 (s_species s !! k).
Lemma sol_add_species k a x s :
  0 <= s_mw s -> 0 < x -> 0 < s_mw a -> is_Some (s_species a !! k) ->
  (is_Some (s_species s !! k) \/ s_mw s = 0) ->
  is_Some (s_species (sol_add a x s) !! k) /\
  s_mw (sol_add a x s) * species k (sol_add a x s) = s_mw s * species k s + x * (s_mw a * species k a).
Proof.
  intros H1 H2 H3 [v Hv] H4. unfold sol_add, species.
  assert (Hx : Qc_zerob x = false) by (apply Qc_zerob_false; by apply Qclt_ne). rewrite Hx.
  cbn [s_species s_mw]. unfold add_species. rewrite !lookup_union_with, Hv.
  assert (Hd : s_mw s + s_mw a * x <> 0).
  { apply Qclt_ne, Qcplus_pos_r; [done|by apply Qcmult_pos]. }
  destruct (s_species s !! k) as [u|] eqn:Hu; cbn.
  - split; [by eexists|]. field. done.
  - split; [by eexists|]. destruct H4 as [[? ?]|H4]; [done|]. rewrite H4. ring.
Qed.
Lemma mix_parts_species k parts s :
  0 <= s_mw s -> (is_Some (s_species s !! k) \/ s_mw s = 0) ->
  (forall a x, (a, x) ∈ parts -> 0 < x /\ 0 < s_mw a /\ is_Some (s_species a !! k)) ->
  s_mw (mix_parts parts s) * species k (mix_parts parts s) =
  s_mw s * species k s + weighted (fun a => s_mw a * species k a) parts.
Proof.
  unfold mix_parts. revert s. induction parts as [|[a x] parts IH]; intros s H1 H2 Hp; simpl; [ring|].
  destruct (Hp a x) as (P1 & P2 & P3); [by left|].
  destruct (sol_add_species k a x s) as [S1 S2]; [done..|].
  rewrite IH; [rewrite S2; ring| | |].
  - rewrite (sol_add_extensive s_mw); [|set_solver]. apply Qcplus_nonneg; [done|].
    apply Qcmult_nonneg; by apply Qclt_le_weak.
  - by left.
  - intros b y Hb. apply (Hp b y). by right.
Qed.

(** ** Mixture tables *)
Lemma weighted_app g p q : weighted g (p ++ q) = weighted g p + weighted g q.
Proof. induction p as [|[a x] p IH]; simpl; [ring|]. rewrite IH. ring. Qed.
Definition part_of (sols : gmap Z sol) (g : sol -> Qc) (n : Z) : Qc :=
  match sols !! n with Some s => g s | None => 0 end.
Lemma weighted_mix_add sols g n f m :
  weighted g (mix_found sols (mix_add n f m)) = f * part_of sols g n + weighted g (mix_found sols m).
Proof.
  unfold part_of. induction m as [|[k h] m IH]; simpl.
  { destruct (sols !! n); simpl; ring. }
  destruct (Z.eqb_spec n k) as [->|Hk]; simpl.
  { destruct (sols !! k); simpl; ring. }
  destruct (n <? k)%Z; simpl.
  { destruct (sols !! n); simpl; ring. }
  destruct (sols !! k); simpl; rewrite IH; ring.
Qed.
Lemma weighted_mix_multiply sols g x m :
  weighted g (mix_found sols (mix_multiply x m)) = x * weighted g (mix_found sols m).
Proof.
  induction m as [|[k h] m IH]; simpl; [ring|]. destruct (sols !! k); simpl; rewrite IH; ring.
Qed.
Lemma mix_found_elem sols m s f : (s, f) ∈ mix_found sols m -> exists n, (n, f) ∈ m /\ sols !! n = Some s.
Proof.
  induction m as [|[k h] m IH]; simpl; [by intros ?%elem_of_nil|].
  destruct (sols !! k) as [t|] eqn:E.
  - intros H. apply elem_of_cons in H as [[= -> ->]|H]; [exists k; split; [by left|done]|].
    destruct (IH H) as (n & ? & ?). exists n. split; [by right|done].
  - intros H. destruct (IH H) as (n & ? & ?). exists n. split; [by right|done].
Qed.

(** ** Update *)
Lemma clip_tiny_ordered l : ordered l -> ordered (clip_tiny l).
Proof.
  induction l as [|[n v] l IH]; intros H; [done|]. apply ordered_cons in H as [Ho Hb]. simpl.
  apply ordered_cons. split; [by apply IH|]. intros m w Hin.
  apply elem_of_list_fmap in Hin as ([m' w'] & [= -> ->] & Hin). by eapply Hb.
Qed.
Lemma clip_tiny_find l n :
  nd_find n (clip_tiny l) = option_map (fun x => if Qc_ltb x tiny then 0 else x) (nd_find n l).
Proof.
  induction l as [|[m v] l IH]; [done|]. simpl. by destruct (scmp n m).
Qed.

(** ** Activity coefficients *)
Definition gamma (n : string) (s : sol) : Qc := default 0 (nd_find n (s_gamma s)).
Definition int_step (f1 f2 : Qc) (acc : list (string * Qc)) (p : string * Qc) : list (string * Qc) :=
  match nd_find p.1 acc with
  | Some y => nd_set p.1 (f1 * y + f2 * p.2) acc
  | None => nd_set p.1 (f2 * p.2) acc
  end.
Lemma int_step_ordered f1 f2 acc p : ordered acc -> ordered (int_step f1 f2 acc p).
Proof. intros H. unfold int_step. destruct (nd_find _ _); by apply nd_set_ordered. Qed.
Lemma add_intensive_ordered a f1 f2 acc : ordered acc -> ordered (nd_add_intensive Qcplus Qcmult a f1 f2 acc).
Proof.
  change (nd_add_intensive Qcplus Qcmult a f1 f2 acc) with (fold_left (int_step f1 f2) a acc). revert acc.
  induction a as [|p a IH]; intros acc H; [done|]. simpl. by apply IH, int_step_ordered.
Qed.
Lemma add_intensive_find a f1 f2 acc n : ordered a -> ordered acc ->
  nd_find n (nd_add_intensive Qcplus Qcmult a f1 f2 acc) =
  match nd_find n a with
  | None => nd_find n acc
  | Some v => Some match nd_find n acc with Some y => f1 * y + f2 * v | None => f2 * v end
  end.
Proof.
  change (nd_add_intensive Qcplus Qcmult a f1 f2 acc) with (fold_left (int_step f1 f2) a acc). revert acc.
  induction a as [|[m i] a IH]; intros acc Ho Ha; [done|].
  cbn [fold_left]. pose proof Ho as [Ho' Hb]%ordered_cons. rewrite IH by (done || by apply int_step_ordered).
  destruct (decide (n = m)) as [->|Hne].
  - rewrite nd_find_cons_eq.
    assert (E : nd_find m a = None).
    { apply nd_find_none; [done|]. intros w Hw. by apply Hb, before_irrefl in Hw. }
    rewrite E. unfold int_step. cbn [fst snd].
    destruct (nd_find m acc); rewrite nd_find_set by done; by rewrite decide_True by done.
  - rewrite nd_find_cons_ne by done.
    assert (E : nd_find n (int_step f1 f2 acc (m, i)) = nd_find n acc).
    { unfold int_step. cbn [fst snd]. destruct (nd_find m acc); rewrite nd_find_set by done;
        by rewrite decide_False by done. }
    by rewrite E.
Qed.
Lemma sol_add_gamma n a x s :
  0 <= s_mw s -> 0 < x -> 0 < s_mw a -> ordered (s_gamma a) -> ordered (s_gamma s) ->
  is_Some (nd_find n (s_gamma a)) ->
  (is_Some (nd_find n (s_gamma s)) \/ s_mw s = 0) ->
  ordered (s_gamma (sol_add a x s)) /\ is_Some (nd_find n (s_gamma (sol_add a x s))) /\
  s_mw (sol_add a x s) * gamma n (sol_add a x s) = s_mw s * gamma n s + x * (s_mw a * gamma n a).
Proof.
  intros H1 H2 H3 Oa Os [v Hv] H4. unfold sol_add, gamma.
  assert (Hx : Qc_zerob x = false) by (apply Qc_zerob_false; by apply Qclt_ne). rewrite Hx.
  cbn [s_gamma s_mw]. split; [by apply add_intensive_ordered|].
  rewrite add_intensive_find by done. rewrite Hv.
  assert (Hd : s_mw s + s_mw a * x <> 0).
  { apply Qclt_ne, Qcplus_pos_r; [done|by apply Qcmult_pos]. }
  destruct (nd_find n (s_gamma s)) as [u|] eqn:Hu; cbn.
  - split; [by eexists|]. field. done.
  - split; [by eexists|]. destruct H4 as [[? ?]|H4]; [done|]. rewrite H4 in *. field.
    split; by apply Qclt_ne.
Qed.
Lemma mix_parts_gamma n parts s :
  0 <= s_mw s -> (is_Some (nd_find n (s_gamma s)) \/ s_mw s = 0) -> ordered (s_gamma s) ->
  (forall a x, (a, x) ∈ parts -> 0 < x /\ 0 < s_mw a /\ ordered (s_gamma a) /\ is_Some (nd_find n (s_gamma a))) ->
  s_mw (mix_parts parts s) * gamma n (mix_parts parts s) =
  s_mw s * gamma n s + weighted (fun a => s_mw a * gamma n a) parts.
Proof.
  unfold mix_parts. revert s. induction parts as [|[a x] parts IH]; intros s H1 H2 H3 Hp; simpl; [ring|].
  destruct (Hp a x) as (P1 & P2 & P3 & P4); [by left|].
  destruct (sol_add_gamma n a x s) as (S1 & S2 & S3); [done..|].
  rewrite IH; [rewrite S3; ring| | | |].
  - rewrite (sol_add_extensive s_mw); [|set_solver]. apply Qcplus_nonneg; [done|].
    apply Qcmult_nonneg; by apply Qclt_le_weak.
  - by left.
  - done.
  - intros b y Hb. apply (Hp b y). by right.
Qed.
