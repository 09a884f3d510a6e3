(** Mixing is linear in every amount. *)
From Coq Require Import String QArith Qcanon.
From stdpp Require Import prelude strings gmap.
From Verif.Names Require Import Model.
From Verif.Solution Require Import Model Spec.
From Verif.Names Require Proofs.
From Verif.Solution Require Proofs.
From Verif.Reactant Require Import Model Spec.
Local Open Scope Qc_scope.

Lemma Qc_zerob_true x : Qc_zerob x = true -> x = 0.
Proof. apply Solution.Proofs.Qc_zerob_true. Qed.
Lemma Qc_zerob_false x : Qc_zerob x = false -> x <> 0.
Proof. apply Solution.Proofs.Qc_zerob_false. Qed.
Lemma is_empty_true s : is_empty s = true <-> s = ""%string.
Proof. unfold is_empty. apply String.eqb_eq. Qed.

(** ** Sums *)
Section sums.
  Context {C : Type}.
  Implicit Types (p : C -> bool) (q : C -> Qc) (l : list C).

  Lemma sum_by_app p q l1 l2 : sum_by p q (l1 ++ l2) = sum_by p q l1 + sum_by p q l2.
  Proof. induction l1 as [|c l1 IH]; cbn; [ring|rewrite IH; ring]. Qed.
  Lemma sum_by_perm p q l l' : l ≡ₚ l' -> sum_by p q l = sum_by p q l'.
  Proof.
    induction 1 as [|c l l' _ IH|c d l|l1 l2 l3 _ IH1 _ IH2]; cbn.
    - done.
    - by rewrite IH.
    - ring.
    - by rewrite IH1.
  Qed.
  Lemma sum_by_ext p p' q q' l :
    (forall c, c ∈ l -> p c = p' c) -> (forall c, c ∈ l -> p c = true -> q c = q' c) ->
    sum_by p q l = sum_by p' q' l.
  Proof.
    induction l as [|c l IH]; intros Hp Hq; cbn; [done|].
    rewrite IH; [|intros d Hd; apply Hp; by right|intros d Hd; apply Hq; by right].
    rewrite <- (Hp c) by (by left). destruct (p c) eqn:E; [|done].
    by rewrite (Hq c) by (by left || done).
  Qed.
  Lemma sum_by_nonneg p q l : (forall c, c ∈ l -> 0 <= q c) -> 0 <= sum_by p q l.
  Proof.
    induction l as [|c l IH]; intros H; cbn; [apply Qcle_refl|].
    apply Solution.Proofs.Qcplus_nonneg; [|apply IH; intros d Hd; apply H; by right].
    destruct (p c); [apply H; by left|apply Qcle_refl].
  Qed.
  Lemma sum_by_zero p q l : (forall c, c ∈ l -> p c = true -> q c = 0) -> sum_by p q l = 0.
  Proof.
    induction l as [|c l IH]; intros H; cbn; [done|].
    rewrite IH by (intros d Hd; apply H; by right).
    destruct (p c) eqn:E; [rewrite (H c) by (by left || done)|]; ring.
  Qed.
End sums.

Lemma sum_by_map {C D} (f : C -> D) (p : D -> bool) (q : D -> Qc) l :
  sum_by p q (map f l) = sum_by (fun c => p (f c)) (fun c => q (f c)) l.
Proof. induction l as [|c l IH]; cbn; [done|by rewrite IH]. Qed.

(** ** Maps as lists *)
Lemma scmp_eq k n : scmp k n = Eq -> k = n.
Proof. apply Names.Proofs.scmp_eq. Qed.

Lemma nd_set_none {V} k (v : V) l : nd_find k l = None -> nd_set k v l ≡ₚ (k, v) :: l.
Proof.
  induction l as [|[n w] l IH]; cbn; [done|].
  destruct (scmp k n); intros H; [done|done|]. rewrite (IH H). apply Permutation_swap.
Qed.
Lemma nd_set_some {V} k (v w : V) l : nd_find k l = Some w ->
  exists l1 l2, l = l1 ++ (k, w) :: l2 /\ nd_set k v l = l1 ++ (k, v) :: l2.
Proof.
  induction l as [|[n x] l IH]; cbn; [done|].
  destruct (scmp k n) eqn:E; intros H; [| done |].
  - apply scmp_eq in E as <-. injection H as ->. by exists [], l.
  - destruct (IH H) as (l1 & l2 & -> & ->). by exists ((n, x) :: l1), l2.
Qed.
Lemma nd_set_elem {V} k (v : V) l p : p ∈ nd_set k v l -> p = (k, v) \/ p ∈ l.
Proof.
  destruct (nd_find k l) as [w|] eqn:E.
  - destruct (nd_set_some k v w l E) as (l1 & l2 & -> & ->).
    rewrite !elem_of_app, !elem_of_cons. tauto.
  - rewrite (nd_set_none k v l E), elem_of_cons. tauto.
Qed.
Lemma nd_find_elem {V} k (v : V) l : nd_find k l = Some v -> (k, v) ∈ l.
Proof.
  intros E. destruct (nd_set_some k v v l E) as (l1 & l2 & -> & _).
  rewrite elem_of_app, elem_of_cons. tauto.
Qed.

Lemma listed_app l1 l2 n : listed (l1 ++ l2) n = listed l1 n + listed l2 n.
Proof. induction l1 as [|[m v] l1 IH]; cbn; [ring|]. rewrite IH. destruct (decide (m = n)); ring. Qed.
Lemma listed_perm l l' n : l ≡ₚ l' -> listed l n = listed l' n.
Proof.
  induction 1 as [|[m v] l l' _ IH|[m v] [m' v'] l|l1 l2 l3 _ IH1 _ IH2]; cbn.
  - done.
  - by rewrite IH.
  - destruct (decide (m = n)), (decide (m' = n)); ring.
  - by rewrite IH1.
Qed.

(** add_extensive and multiply are linear in every listed amount, whatever the lists. *)
Lemma add_extensive_linear a x l n :
  listed (nd_add_extensive Qcplus Qcmult false a x l) n = listed l n + x * listed a n.
Proof.
  unfold nd_add_extensive. revert l. induction a as [|[m v] a IH]; intros l; cbn [fold_left fst snd].
  - cbn. ring.
  - rewrite IH. cbn [listed]. destruct (nd_find m l) as [y|] eqn:E.
    + destruct (nd_set_some m (y + v * x) y l E) as (l1 & l2 & -> & ->).
      rewrite !listed_app. cbn [listed]. destruct (decide (m = n)); ring.
    + rewrite (listed_perm _ _ n (nd_set_none m (v * x) l E)). cbn [listed].
      destruct (decide (m = n)); ring.
Qed.
Lemma multiply_linear x l n : listed (nd_multiply Qcmult x l) n = x * listed l n.
Proof.
  unfold nd_multiply. induction l as [|[m v] l IH]; cbn; [ring|].
  destruct (decide (m = n)); rewrite IH; ring.
Qed.

(** ** The component loops *)
Section comps.
  Context {C : Type} (same : C -> C -> bool) (cadd : C -> Qc -> C -> C) (cmul : Qc -> C -> C).
  Context (p : C -> bool) (q : C -> Qc) (x : Qc).
  Hypothesis same_p : forall a c, same a c = true -> p a = p c.
  Hypothesis add_p : forall a c, p (cadd a x c) = p c.
  Hypothesis add_q : forall a c, p a = true -> q (cadd a x c) = q c + x * q a.
  Hypothesis mul_p : forall c, p (cmul x c) = p c.
  Hypothesis mul_q : forall c, q (cmul x c) = x * q c.

  Lemma add_into_sum a l :
    sum_by p q (add_into same cadd cmul a x l) = sum_by p q l + x * (if p a then q a else 0).
  Proof.
    induction l as [|c l IH]; cbn.
    - rewrite mul_p, mul_q. destruct (p a); ring.
    - destruct (same a c) eqn:E; cbn.
      + rewrite add_p, <- (same_p _ _ E). destruct (p a) eqn:Ea; [rewrite add_q by done|]; ring.
      + rewrite IH. ring.
  Qed.
  Lemma add_all_sum la l :
    sum_by p q (add_all same cadd cmul la x l) = sum_by p q l + x * sum_by p q la.
  Proof.
    unfold add_all. revert l. induction la as [|a la IH]; intros l; cbn; [ring|].
    rewrite IH, add_into_sum. ring.
  Qed.
End comps.

(** ** Mixing in general *)

(** Weighted sum over the entries of a mix that exist. *)
Fixpoint mix_amount {A} (f : A -> Qc) (ents : gmap Z A) (m : mixmap) : Qc :=
  match m with
  | [] => 0
  | (n, x) :: m' => (match ents !! n with Some a => x * f a | None => 0 end) + mix_amount f ents m'
  end.

Section mixing.
  Context {A : Type} (add : A -> Qc -> A -> A) (f : A -> Qc) (P : A -> Prop).
  Hypothesis add_ok : forall a x e, P a -> P e -> P (add a x e).
  Hypothesis add_f : forall a x e, P a -> P e -> f (add a x e) = f e + x * f a.

  Lemma mixed_linear ents m z :
    (forall n a, ents !! n = Some a -> P a) -> P z ->
    P (mixed add ents m z) /\ f (mixed add ents m z) = f z + mix_amount f ents m.
  Proof.
    intros HP. unfold mixed. revert z.
    induction m as [|[n x] m IH]; intros z Hz; cbn [fold_left mix_amount fst snd].
    - split; [done|ring].
    - destruct (ents !! n) as [a|] eqn:E.
      + pose proof (HP _ _ E) as Ha.
        destruct (IH (add a x z)) as [H1 H2]; [by apply add_ok|]. split; [done|].
        rewrite H2, add_f by done. ring.
      + destruct (IH z Hz) as [H1 H2]. split; [done|]. rewrite H2. ring.
  Qed.
End mixing.

(** ** Exchange *)
Lemma ecomp_add_formula a x c : ec_formula (ecomp_add a x c) = ec_formula c.
Proof. unfold ecomp_add. by destruct (Qc_zerob x), (is_empty (ec_formula a)). Qed.
Lemma ecomp_add_totals a x c m : ec_formula a <> ""%string ->
  listed (ec_totals (ecomp_add a x c)) m = listed (ec_totals c) m + x * listed (ec_totals a) m.
Proof.
  intros H. unfold ecomp_add. destruct (Qc_zerob x) eqn:E.
  - apply Qc_zerob_true in E as ->. ring.
  - destruct (is_empty (ec_formula a)) eqn:F; [by apply is_empty_true in F|].
    cbn [ec_totals]. apply add_extensive_linear.
Qed.
Lemma ecomp_add_cb a x c : ec_formula a <> ""%string -> ec_cb (ecomp_add a x c) = ec_cb c + x * ec_cb a.
Proof.
  intros H. unfold ecomp_add. destruct (Qc_zerob x) eqn:E.
  - apply Qc_zerob_true in E as ->. ring.
  - destruct (is_empty (ec_formula a)) eqn:F; [by apply is_empty_true in F|].
    cbn [ec_cb]. ring.
Qed.
Lemma ecomp_same_eq a c : ecomp_same a c = true -> ec_formula a = ec_formula c.
Proof. unfold ecomp_same. apply String.eqb_eq. Qed.

Lemma exch_add_linear q a x e : named_q q ->
  exch_amount q (exch_add a x e) = exch_amount q e + x * exch_amount q a.
Proof.
  intros Hn. unfold exch_add. destruct (Qc_zerob x) eqn:E.
  { apply Qc_zerob_true in E as ->. destruct q; cbn; ring. }
  destruct q; cbn [exch_amount ex_comps]; try ring; cbn in Hn;
    (apply add_all_sum;
     [ intros b c H; by rewrite (ecomp_same_eq _ _ H)
     | intros b c; by rewrite ecomp_add_formula
     | intros b c H; apply bool_decide_eq_true in H
     | done
     | intros c; cbn ]).
  - apply ecomp_add_totals. congruence.
  - apply multiply_linear.
  - apply ecomp_add_cb. congruence.
  - ring.
Qed.
Lemma exch_mix_linear q ents m : named_q q ->
  exch_amount q (exch_mix ents m) = mix_amount (exch_amount q) ents m.
Proof.
  intros Hn. unfold exch_mix.
  destruct (mixed_linear exch_add (exch_amount q) (fun _ => True)) with (ents := ents) (m := m) (z := exch_zero)
    as [_ H]; try done.
  - intros a x e _ _. by apply exch_add_linear.
  - rewrite H. destruct q; cbn; ring.
Qed.

(** ** Equilibrium phases *)
Lemma pcomp_add_name a x c : pc_name (pcomp_add a x c) = pc_name c /\ pc_formula (pcomp_add a x c) = pc_formula c.
Proof.
  unfold pcomp_add. by repeat case_match.
Qed.
Lemma pcomp_add_moles a x c : pc_name a <> ""%string -> pc_formula c = pc_formula a ->
  pc_moles (pcomp_add a x c) = pc_moles c + x * pc_moles a /\
  pc_init (pcomp_add a x c) = pc_init c + x * pc_init a.
Proof.
  intros H Hf. unfold pcomp_add. destruct (Qc_zerob x) eqn:E.
  - apply Qc_zerob_true in E as ->. split; ring.
  - destruct (is_empty (pc_name a)) eqn:F; [by apply is_empty_true in F|].
    destruct (weights _ _) as [f1 f2]. rewrite Hf, String.eqb_refl. cbn. split; ring.
Qed.

(** What the queries of an equilibrium phase have in common. *)
Definition pq (g : pcomp -> Qc) : Prop := g = pc_moles \/ g = pc_init.
Lemma pq_add g a x c : pq g -> pc_name a <> ""%string -> pc_formula c = pc_formula a ->
  g (pcomp_add a x c) = g c + x * g a.
Proof. intros [-> | ->] H1 H2; apply (pcomp_add_moles a x c H1 H2). Qed.
Lemma pq_mul g x c : pq g -> g (pcomp_mul x c) = x * g c.
Proof. intros [-> | ->]; cbn; ring. Qed.
Definition psum (n : string) (g : pcomp -> Qc) (l : nmap pcomp) : Qc :=
  sum_by (fun kc => bool_decide (pc_name kc.2 = n)) (fun kc => g kc.2) l.
Definition plist_ok (fm : string -> string) (l : nmap pcomp) : Prop :=
  forall k c, (k, c) ∈ l -> k = pc_name c /\ pc_formula c = fm (pc_name c).

Lemma pp_update_some fm g n a x l l' : pq g -> n <> ""%string -> plist_ok fm l ->
  pc_formula a = fm (pc_name a) -> pp_update a x l = Some l' ->
  plist_ok fm l' /\ psum n g l' = psum n g l + x * (if bool_decide (pc_name a = n) then g a else 0).
Proof.
  intros Hg Hn Hl Ha. revert l'. induction l as [|[k c] l IH]; intros l'; cbn; [done|].
  destruct (String.eqb (pc_name c) (pc_name a)) eqn:E.
  - apply String.eqb_eq in E. intros [= <-].
    destruct (Hl k c) as [Hk Hc]; [by left|].
    destruct (pcomp_add_name a x c) as [E1 E2].
    split.
    + intros k' c' [H|H]%elem_of_cons.
      * injection H as -> ->. rewrite E1, E2. done.
      * apply Hl. by right.
    + unfold psum. cbn. rewrite E1, E.
      destruct (bool_decide (pc_name a = n)) eqn:En; [|ring].
      apply bool_decide_eq_true in En.
      rewrite (pq_add g a x c Hg) by congruence. ring.
  - destruct (pp_update a x l) as [l1|] eqn:F; [|done]. cbn. intros [= <-].
    destruct (IH (fun k' c' H => Hl k' c' (elem_of_list_further _ _ _ H)) l1 eq_refl) as [H1 H2].
    split.
    + intros k' c' [H|H]%elem_of_cons; [injection H as -> ->; apply Hl; by left|by apply H1].
    + unfold psum in *. cbn. rewrite H2. ring.
Qed.
Lemma pp_update_none a x l : pp_update a x l = None -> forall k c, (k, c) ∈ l -> pc_name c <> pc_name a.
Proof.
  induction l as [|[k c] l IH]; cbn; [by intros _ k c H%elem_of_nil|].
  destruct (String.eqb (pc_name c) (pc_name a)) eqn:E; [done|].
  destruct (pp_update a x l); [done|]. intros _ k' c' [H|H]%elem_of_cons.
  - injection H as -> ->. by apply String.eqb_neq.
  - by eapply IH.
Qed.
Lemma pp_add_comp_ok fm g n a x l : pq g -> n <> ""%string -> plist_ok fm l ->
  pc_formula a = fm (pc_name a) ->
  plist_ok fm (pp_add_comp a x l) /\
  psum n g (pp_add_comp a x l) = psum n g l + x * (if bool_decide (pc_name a = n) then g a else 0).
Proof.
  intros Hg Hn Hl Ha. unfold pp_add_comp. destruct (pp_update a x l) as [l'|] eqn:E.
  - by apply (pp_update_some fm g n a x l l').
  - destruct (nd_find (pc_name a) l) as [c|] eqn:F.
    { apply nd_find_elem in F. destruct (Hl _ _ F) as [H _].
      by destruct (pp_update_none _ _ _ E _ _ F). }
    split.
    + intros k c H. apply nd_set_elem in H as [H|H]; [|by apply Hl].
      injection H as -> ->. done.
    + unfold psum. rewrite (sum_by_perm _ _ _ _ (nd_set_none _ (pcomp_mul x a) _ F)).
      cbn. rewrite pq_mul by done. destruct (bool_decide (pc_name a = n)); ring.
Qed.
Lemma pp_add_fold fm g n x la l : pq g -> n <> ""%string -> plist_ok fm l -> plist_ok fm la ->
  plist_ok fm (fold_left (fun acc kc => pp_add_comp kc.2 x acc) la l) /\
  psum n g (fold_left (fun acc kc => pp_add_comp kc.2 x acc) la l) = psum n g l + x * psum n g la.
Proof.
  intros Hg Hn Hl. revert l Hl. induction la as [|[k a] la IH]; intros l Hl Hla; cbn [fold_left snd].
  - split; [done|]. unfold psum; cbn; ring.
  - destruct (Hla k a) as [_ Ha]; [by left|].
    destruct (pp_add_comp_ok fm g n a x l Hg Hn Hl Ha) as [H1 H2].
    destruct (IH (pp_add_comp a x l) H1) as [H3 H4].
    { intros k' c' H. apply Hla. by right. }
    split; [done|]. rewrite H4, H2. unfold psum. cbn. ring.
Qed.

Lemma pp_add_linear fm q a x p : named_q q -> pp_ok fm a -> pp_ok fm p ->
  pp_ok fm (pp_add a x p) /\ pp_amount q (pp_add a x p) = pp_amount q p + x * pp_amount q a.
Proof.
  intros Hn Ha Hp. unfold pp_add. destruct (Qc_zerob x) eqn:E.
  { apply Qc_zerob_true in E as ->. split; [done|]. ring. }
  split.
  - apply (pp_add_fold fm pc_moles "x"); [by left|done|done|done].
  - destruct q; cbn [pp_amount pp_comps pp_elts]; try ring; cbn in Hn.
    + by apply (pp_add_fold fm pc_moles); [left|..].
    + by apply (pp_add_fold fm pc_init); [right|..].
    + apply add_extensive_linear.
Qed.
Lemma pp_mix_linear fm q ents m : named_q q -> (forall n p, ents !! n = Some p -> pp_ok fm p) ->
  pp_ok fm (pp_mix ents m) /\ pp_amount q (pp_mix ents m) = mix_amount (pp_amount q) ents m.
Proof.
  intros Hn He. unfold pp_mix.
  destruct (mixed_linear pp_add (pp_amount q) (pp_ok fm)) with (ents := ents) (m := m) (z := pp_zero)
    as [H1 H2]; try done.
  - intros a x e Ha Hp. by apply (pp_add_linear fm q a x e).
  - intros a x e Ha Hp. by apply (pp_add_linear fm q a x e).
  - by intros k c H%elem_of_nil.
  - split; [done|]. rewrite H2. destruct q; cbn; ring.
Qed.

(** ** Gas phase *)
Lemma gcomp_add_name a x c : gc_name (gcomp_add a x c) = gc_name c.
Proof. unfold gcomp_add. by repeat case_match. Qed.
Lemma gcomp_add_moles a x c : gc_name a <> ""%string ->
  gc_moles (gcomp_add a x c) = gc_moles c + x * gc_moles a.
Proof.
  intros H. unfold gcomp_add. destruct (Qc_zerob x) eqn:E.
  - apply Qc_zerob_true in E as ->. ring.
  - destruct (is_empty (gc_name a)) eqn:F; [by apply is_empty_true in F|].
    destruct (weights _ _) as [f1 f2]. cbn. ring.
Qed.
Definition gsum (n : string) (l : nmap gcomp) : Qc :=
  sum_by (fun kc => bool_decide (gc_name kc.2 = n)) (fun kc => gc_moles kc.2) l.
Definition glist_ok (l : nmap gcomp) : Prop := forall k c, (k, c) ∈ l -> k = gc_name c.
Lemma gas_collect_ok n x acc a : n <> ""%string -> glist_ok acc ->
  glist_ok (gas_collect x acc a) /\
  gsum n (gas_collect x acc a) = gsum n acc + x * (if bool_decide (gc_name a = n) then gc_moles a else 0).
Proof.
  intros Hn Hl. unfold gas_collect. destruct (nd_find (gc_name a) acc) as [c|] eqn:E.
  - pose proof (nd_find_elem _ _ _ E) as He. pose proof (Hl _ _ He) as Hc. split.
    + intros k d H. apply nd_set_elem in H as [H|H]; [|by apply Hl].
      injection H as -> ->. by rewrite gcomp_add_name.
    + destruct (nd_set_some _ (gcomp_add a x c) _ _ E) as (l1 & l2 & -> & ->).
      unfold gsum. rewrite !sum_by_app. cbn. rewrite gcomp_add_name, <- Hc.
      destruct (bool_decide (gc_name a = n)) eqn:En; [|ring].
      apply bool_decide_eq_true in En. rewrite gcomp_add_moles by congruence. ring.
  - split.
    + intros k d H. apply nd_set_elem in H as [H|H]; [|by apply Hl].
      by injection H as -> ->.
    + unfold gsum. rewrite (sum_by_perm _ _ _ _ (nd_set_none _ (gcomp_mul x a) _ E)).
      cbn. destruct (bool_decide (gc_name a = n)); ring.
Qed.
Lemma gas_collect_fold n x l acc : n <> ""%string -> glist_ok acc ->
  glist_ok (fold_left (gas_collect x) l acc) /\
  gsum n (fold_left (gas_collect x) l acc) =
    gsum n acc + x * sum_by (fun c => bool_decide (gc_name c = n)) gc_moles l.
Proof.
  intros Hn. revert acc. induction l as [|a l IH]; intros acc Hl; cbn [fold_left sum_by].
  - split; [done|ring].
  - destruct (gas_collect_ok n x acc a Hn Hl) as [H1 H2].
    destruct (IH _ H1) as [H3 H4]. split; [done|]. rewrite H4, H2. ring.
Qed.

Lemma gas_loop_linear gt n ents sum m first g acc :
  n <> ""%string -> (forall k a, ents !! k = Some a -> g_type a = gt) ->
  (first = false -> g_type g = gt) -> (first = true -> g_volume g = 0 /\ g_moles g = 0) ->
  glist_ok acc ->
  ((exists k, is_Some (ents !! k) /\ k ∈ map fst m) \/ first = false ->
     g_type (gas_loop ents sum m first g acc) = gt) /\
  gas_amount QGasVolume (gas_loop ents sum m first g acc) =
    g_volume g + mix_amount (gas_amount QGasVolume) ents m /\
  gas_amount QGasMoles (gas_loop ents sum m first g acc) =
    g_moles g + mix_amount (gas_amount QGasMoles) ents m /\
  gas_amount (QGas n) (gas_loop ents sum m first g acc) =
    gsum n acc + mix_amount (gas_amount (QGas n)) ents m.
Proof.
  intros Hn He. revert first g acc. induction m as [|[k x] m IH]; intros first g acc Ht Hf Hacc.
  - cbn. repeat split; try ring.
    + intros [(k & _ & H)| ->]; [by apply elem_of_nil in H|by apply Ht].
    + rewrite sum_by_map. unfold gsum. ring.
  - cbn [gas_loop mix_amount]. destruct (ents !! k) as [a|] eqn:E.
    + pose proof (He _ _ E) as Ha.
      destruct (gas_collect_fold n x (g_comps a) acc Hn Hacc) as [H1 H2].
      destruct first.
      * edestruct (IH false) as (I1 & I2 & I3 & I4); [| |exact H1|].
        3: { split; [intros _; apply I1; by right|]. rewrite I2, I3, I4, H2.
             destruct (Hf eq_refl) as [-> ->]. cbn. repeat split; ring. }
        -- intros _. exact Ha.
        -- done.
      * rewrite bool_decide_eq_true_2 by (rewrite Ht by done; done).
        edestruct (IH false) as (I1 & I2 & I3 & I4); [| |exact H1|].
        3: { split; [intros _; apply I1; by right|]. rewrite I2, I3, I4, H2.
             cbn. repeat split; ring. }
        -- intros _. by apply Ht.
        -- done.
    + destruct (IH first g acc Ht Hf Hacc) as (I1 & I2 & I3 & I4).
      split; [|rewrite I2, I3, I4; repeat split; ring].
      intros [(j & Hj & H)|H]; apply I1; [left|by right].
      cbn in H. apply elem_of_cons in H as [->|H]; [|by exists j].
      rewrite E in Hj. by destruct Hj.
Qed.
Lemma gas_mix_linear gt q ents m : named_q q -> (forall k a, ents !! k = Some a -> g_type a = gt) ->
  gas_amount q (gas_mix ents m) = mix_amount (gas_amount q) ents m.
Proof.
  intros Hn He. unfold gas_mix.
  assert (Hz : forall n, n <> ""%string ->
    gas_amount QGasVolume (gas_loop ents (mix_sum m) m true gas_zero []) = 0 + mix_amount (gas_amount QGasVolume) ents m /\
    gas_amount QGasMoles (gas_loop ents (mix_sum m) m true gas_zero []) = 0 + mix_amount (gas_amount QGasMoles) ents m /\
    gas_amount (QGas n) (gas_loop ents (mix_sum m) m true gas_zero []) = 0 + mix_amount (gas_amount (QGas n)) ents m).
  { intros n H. apply (gas_loop_linear gt n ents (mix_sum m) m true gas_zero [] H He); try done. by intros k c Hk%elem_of_nil. }
  assert (Hd : forall q', (forall g, gas_amount q' g = 0) -> gas_amount q' (gas_loop ents (mix_sum m) m true gas_zero []) = mix_amount (gas_amount q') ents m).
  { intros q' H. rewrite H. symmetry. clear -H. induction m as [|[k x] m IH]; cbn; [done|].
    destruct (ents !! k); rewrite ?H, IH; ring. }
  destruct q; try (apply Hd; done).
  - destruct (Hz name Hn) as (_ & _ & ->). ring.
  - destruct (Hz "x"%string ltac:(done)) as (-> & _ & _). ring.
  - destruct (Hz "x"%string ltac:(done)) as (_ & -> & _). ring.
Qed.
Lemma gas_mix_type gt ents m k : (forall k a, ents !! k = Some a -> g_type a = gt) ->
  is_Some (ents !! k) -> k ∈ map fst m -> g_type (gas_mix ents m) = gt.
Proof.
  intros He Hk Hm. unfold gas_mix.
  apply (gas_loop_linear gt "x" ents (mix_sum m) m true gas_zero []); try done.
  - by intros j c Hj%elem_of_nil.
  - left. by exists k.
Qed.

(** ** Solid solutions *)
Definition sq (g : scomp -> Qc) : Prop := g = sc_moles \/ g = sc_initial.
Definition csum (c : string) (g : scomp -> Qc) (l : list scomp) : Qc :=
  sum_by (fun y => bool_decide (lowered (sc_name y) = lowered c)) g l.
Lemma ss_add_sum g c a x s : sq g -> ss_name a <> ""%string ->
  csum c g (ss_comps (ss_add a x s)) = csum c g (ss_comps s) + x * csum c g (ss_comps a).
Proof.
  intros Hg Hn. unfold ss_add. destruct (Qc_zerob x) eqn:E.
  { apply Qc_zerob_true in E as ->. ring. }
  destruct (is_empty (ss_name a)) eqn:F; [by apply is_empty_true in F|]. cbn [ss_comps].
  apply add_all_sum.
  - intros b d H. unfold scomp_same, same_nocase in H. apply String.eqb_eq in H. by rewrite H.
  - done.
  - intros b d _. destruct Hg as [-> | ->]; cbn; ring.
  - done.
  - intros d. destruct Hg as [-> | ->]; cbn; ring.
Qed.
Lemma ss_mul_sum g c x s : sq g -> csum c g (ss_comps (ss_mul x s)) = x * csum c g (ss_comps s).
Proof.
  intros Hg. unfold csum, ss_mul. cbn [ss_comps]. rewrite sum_by_map. cbn.
  induction (ss_comps s) as [|d l IH]; cbn; [ring|]. rewrite IH.
  destruct Hg as [-> | ->]; cbn; destruct (bool_decide _); ring.
Qed.
Lemma ss_add_name a x s : ss_name (ss_add a x s) = ss_name s.
Proof. unfold ss_add. by destruct (Qc_zerob x), (is_empty (ss_name a)). Qed.
Definition ssum (n c : string) (g : scomp -> Qc) (l : ssas) : Qc :=
  sum_by (fun kv => bool_decide (ss_name kv.2 = n)) (fun kv => csum c g (ss_comps kv.2)) l.
Lemma ssas_step_ok g n c x acc p : sq g -> n <> ""%string -> ss_ok acc -> p.1 = ss_name p.2 ->
  ss_ok (ssas_step x acc p) /\
  ssum n c g (ssas_step x acc p) = ssum n c g acc + x * (if bool_decide (ss_name p.2 = n) then csum c g (ss_comps p.2) else 0).
Proof.
  intros Hg Hn Hl Hp. destruct p as [k a]. cbn [fst snd] in *. unfold ssas_step. cbn [fst snd].
  destruct (nd_find k acc) as [s|] eqn:E.
  - pose proof (nd_find_elem _ _ _ E) as He. pose proof (Hl _ _ He) as Hs. split.
    + intros k' s' H. apply nd_set_elem in H as [H|H]; [|by apply Hl].
      injection H as -> ->. by rewrite ss_add_name.
    + destruct (nd_set_some _ (ss_add a x s) _ _ E) as (l1 & l2 & -> & ->).
      unfold ssum. rewrite !sum_by_app. cbn [sum_by snd]. rewrite ss_add_name.
      rewrite <- Hs, <- Hp. destruct (bool_decide (k = n)) eqn:En; [|ring].
      apply bool_decide_eq_true in En. rewrite ss_add_sum by (done || congruence). ring.
  - subst k. split.
    + intros k' s' H. apply nd_set_elem in H as [H|H]; [|by apply Hl]. by injection H as -> ->.
    + unfold ssum. rewrite (sum_by_perm _ _ _ _ (nd_set_none _ (ss_mul x a) _ E)).
      cbn [sum_by snd]. change (ss_name (ss_mul x a)) with (ss_name a).
      rewrite ss_mul_sum by done. destruct (bool_decide (ss_name a = n)); ring.
Qed.
Lemma ssas_fold_ok g n c x a l : sq g -> n <> ""%string -> ss_ok l -> ss_ok a ->
  ss_ok (fold_left (ssas_step x) a l) /\
  ssum n c g (fold_left (ssas_step x) a l) = ssum n c g l + x * ssum n c g a.
Proof.
  intros Hg Hn Hl. revert l Hl. induction a as [|[k s] a IH]; intros l Hl Ha; cbn [fold_left].
  - split; [done|]. unfold ssum. cbn. ring.
  - destruct (ssas_step_ok g n c x l (k, s) Hg Hn Hl) as [H1 H2].
    { apply Ha. by left. }
    destruct (IH _ H1) as [H3 H4]. { intros k' s' H. apply Ha. by right. }
    split; [done|]. rewrite H4, H2. unfold ssum. cbn [sum_by snd]. ring.
Qed.
Lemma ssas_add_linear q a x l : named_q q -> ss_ok a -> ss_ok l ->
  ss_ok (ssas_add a x l) /\ ss_amount q (ssas_add a x l) = ss_amount q l + x * ss_amount q a.
Proof.
  intros Hn Ha Hl. unfold ssas_add. destruct (Qc_zerob x) eqn:E.
  { apply Qc_zerob_true in E as ->. split; [done|ring]. }
  split.
  - apply (ssas_fold_ok sc_moles "x" ""); [by left|done|done|done].
  - destruct q; cbn [ss_amount]; try ring; cbn in Hn.
    + by apply (ssas_fold_ok sc_moles); [left|..].
    + by apply (ssas_fold_ok sc_initial); [right|..].
Qed.
Lemma ssas_mix_linear q ents m : named_q q -> (forall n p, ents !! n = Some p -> ss_ok p) ->
  ss_ok (ssas_mix ents m) /\ ss_amount q (ssas_mix ents m) = mix_amount (ss_amount q) ents m.
Proof.
  intros Hn He. unfold ssas_mix.
  destruct (mixed_linear ssas_add (ss_amount q) ss_ok) with (ents := ents) (m := m) (z := ([] : ssas))
    as [H1 H2]; try done.
  - intros a x e Ha Hp. by apply (ssas_add_linear q a x e).
  - intros a x e Ha Hp. by apply (ssas_add_linear q a x e).
  - by intros k c H%elem_of_nil.
  - split; [done|]. rewrite H2. destruct q; cbn; ring.
Qed.

(** ** Kinetics *)
Lemma kcomp_add_name a x c : kc_name (kcomp_add a x c) = kc_name c.
Proof. unfold kcomp_add. by destruct (Qc_zerob x), (is_empty (kc_name a)). Qed.
Lemma kcomp_add_m a x c : kc_name a <> ""%string ->
  kc_m (kcomp_add a x c) = kc_m c + x * kc_m a /\ kc_m0 (kcomp_add a x c) = kc_m0 c + x * kc_m0 a.
Proof.
  intros H. unfold kcomp_add. destruct (Qc_zerob x) eqn:E.
  - apply Qc_zerob_true in E as ->. split; ring.
  - destruct (is_empty (kc_name a)) eqn:F; [by apply is_empty_true in F|]. cbn. split; ring.
Qed.
Lemma kin_add_linear q a x k : named_q q ->
  kin_amount q (kin_add a x k) = kin_amount q k + x * kin_amount q a.
Proof.
  intros Hn. unfold kin_add. destruct (Qc_zerob x) eqn:E.
  { apply Qc_zerob_true in E as ->. ring. }
  destruct q; cbn [kin_amount k_comps]; try ring; cbn in Hn;
    (apply add_all_sum;
     [ intros b c H; apply String.eqb_eq in H; by rewrite H
     | intros b c; by rewrite kcomp_add_name
     | intros b c H; apply bool_decide_eq_true in H; apply kcomp_add_m; congruence
     | done
     | intros c; cbn; ring ]).
Qed.
Lemma kin_mix_linear q ents m : named_q q ->
  kin_amount q (kin_mix ents m) = mix_amount (kin_amount q) ents m.
Proof.
  intros Hn. unfold kin_mix.
  destruct (mixed_linear kin_add (kin_amount q) (fun _ => True)) with (ents := ents) (m := m) (z := kin_zero)
    as [_ H]; try done.
  - intros a x e _ _. by apply kin_add_linear.
  - rewrite H. destruct q; cbn; ring.
Qed.

(** ** Surface *)
Lemma ucomp_add_formula a x c : uc_formula (ucomp_add a x c) = uc_formula c.
Proof. unfold ucomp_add. by repeat case_match. Qed.
Lemma ucomp_add_linear a x c m : uc_formula a <> ""%string ->
  uc_moles (ucomp_add a x c) = uc_moles c + x * uc_moles a /\
  listed (uc_totals (ucomp_add a x c)) m = listed (uc_totals c) m + x * listed (uc_totals a) m /\
  uc_cb (ucomp_add a x c) = uc_cb c + x * uc_cb a.
Proof.
  intros H. unfold ucomp_add. destruct (Qc_zerob x) eqn:E.
  - apply Qc_zerob_true in E as ->. repeat split; ring.
  - destruct (is_empty (uc_formula a)) eqn:F; [by apply is_empty_true in F|].
    destruct (weights _ _) as [f1 f2]. cbn [uc_moles uc_totals uc_cb].
    rewrite add_extensive_linear. repeat split; ring.
Qed.
Lemma ucharge_add_name a x c : uh_name (ucharge_add a x c) = uh_name c.
Proof. unfold ucharge_add. by repeat case_match. Qed.
Lemma ucharge_add_linear a x c m : uh_name a <> ""%string ->
  uh_grams (ucharge_add a x c) = uh_grams c + x * uh_grams a /\
  uh_cb (ucharge_add a x c) = uh_cb c + x * uh_cb a /\
  uh_water (ucharge_add a x c) = uh_water c + x * uh_water a /\
  listed (uh_ddl (ucharge_add a x c)) m = listed (uh_ddl c) m + x * listed (uh_ddl a) m.
Proof.
  intros H. unfold ucharge_add. destruct (Qc_zerob x) eqn:E.
  - apply Qc_zerob_true in E as ->. repeat split; ring.
  - destruct (is_empty (uh_name c) && is_empty (uh_name a)) eqn:F.
    { apply andb_prop in F as [_ F]. by apply is_empty_true in F. }
    destruct (weights _ _) as [f1 f2]. cbn [uh_grams uh_cb uh_water uh_ddl].
    rewrite add_extensive_linear. repeat split; ring.
Qed.
Lemma surf_add_linear q a x s : named_q q ->
  surf_amount q (surf_add a x s) = surf_amount q s + x * surf_amount q a.
Proof.
  intros Hn. unfold surf_add. destruct (Qc_zerob x) eqn:E.
  { apply Qc_zerob_true in E as ->. ring. }
  destruct q; cbn [surf_amount u_comps u_charges]; try ring; cbn in Hn;
    (apply add_all_sum;
     [ intros b c H; apply String.eqb_eq in H; by rewrite H
     | intros b c; first [by rewrite ucomp_add_formula | by rewrite ucharge_add_name]
     | intros b c H; apply bool_decide_eq_true in H;
       first [apply (ucomp_add_linear b x c ""); congruence
             |apply (ucomp_add_linear b x c); congruence
             |apply (ucharge_add_linear b x c ""); congruence
             |apply (ucharge_add_linear b x c); congruence]
     | done
     | intros c; cbn; first [apply multiply_linear | ring] ]).
Qed.
Lemma surf_mix_linear q ents m : named_q q ->
  surf_amount q (surf_mix ents m) = mix_amount (surf_amount q) ents m.
Proof.
  intros Hn. unfold surf_mix.
  destruct (mixed_linear surf_add (surf_amount q) (fun _ => True)) with (ents := ents) (m := m) (z := surf_zero)
    as [_ H]; try done.
  - intros a x e _ _. by apply surf_add_linear.
  - rewrite H. destruct q; cbn; ring.
Qed.
