(** Lemmas about boundary conditions. *)
From Coq Require Import String QArith Qcanon.
From stdpp Require Import prelude strings gmap sorting.
From Verif.Base Require Import Result.
From Verif.Names Require Import Model Spec Proofs.
From Verif.Solution Require Import Model Spec Proofs Props.
From Verif.Conc Require Import Model Spec Proofs Props.
From Verif.Boundary Require Import Model Spec.
Local Open Scope Qc_scope.

(** ** Numbers *)
Lemma foldl_max n ns : let m := foldl Z.max n ns in
  (m = n \/ m ∈ ns) /\ (n <= m)%Z /\ forall k, k ∈ ns -> (k <= m)%Z.
Proof.
  cbn zeta. revert n. induction ns as [|x ns IH]; intros n; simpl.
  { split_and!; [by left|lia|]. by intros k ?%elem_of_nil. }
  destruct (IH (n `max` x)%Z) as (H1 & H2 & H3). split_and!.
  - destruct H1 as [H1|H1]; [|right; by right]. rewrite H1.
    destruct (Z.max_spec n x) as [[_ ->]|[_ ->]]; [right; left|by left].
  - lia.
  - intros k [->|Hk]%elem_of_cons; [lia|by apply H3].
Qed.
Lemma next_number_spec ns : ns <> [] ->
  (next_number ns - 1)%Z ∈ ns /\ forall k, k ∈ ns -> (k <= next_number ns - 1)%Z.
Proof.
  destruct ns as [|n ns]; [done|]. intros _. unfold next_number.
  destruct (foldl_max n ns) as (H1 & H2 & H3).
  replace (foldl Z.max n ns + 1 - 1)%Z with (foldl Z.max n ns) by lia. split.
  - destruct H1 as [->|H1]; [left|by right].
  - intros k [->|Hk]%elem_of_cons; [done|by apply H3].
Qed.
Lemma sol_numbers t k : k ∈ (map_to_list (d_sols t)).*1 <-> is_Some (d_sols t !! k).
Proof.
  rewrite elem_of_list_fmap. split.
  - intros ([k' s] & -> & H%elem_of_map_to_list). by exists s.
  - intros [s H]. exists (k, s). split; [done|]. by apply elem_of_map_to_list.
Qed.
Lemma first_number_spec t n m : numbered t -> stands_for t n m -> first_number t n = m /\ (0 <= m)%Z.
Proof.
  intros Hn [[H ->]|(H & Hk & Hmax)]; unfold first_number.
  { destruct (Z.ltb_spec n 0); [lia|done]. }
  split; [|by apply Hn]. destruct (Z.ltb_spec n 0); [|lia].
  set (ss := (map_to_list (d_sols t)).*1).
  assert (Hs : ss <> [] -> (0 <= next_number ss - 1 <= m)%Z /\ forall k, k ∈ ss -> (k <= next_number ss - 1)%Z).
  { intros Hne. destruct (next_number_spec ss Hne) as [H1 H2]. apply sol_numbers in H1. split; [|done].
    split; [apply Hn|apply Hmax]; by left. }
  assert (Hx : d_mixes t <> [] -> (0 <= next_number (d_mixes t) - 1 <= m)%Z /\
               forall k, k ∈ d_mixes t -> (k <= next_number (d_mixes t) - 1)%Z).
  { intros Hne. destruct (next_number_spec _ Hne) as [H1 H2]. split; [|done].
    split; [apply Hn|apply Hmax]; by right. }
  assert (Hm0 : (0 <= m)%Z) by by apply Hn.
  assert (Es : ss = [] -> next_number ss = 0%Z) by by intros ->.
  assert (Ex : d_mixes t = [] -> next_number (d_mixes t) = 0%Z) by by intros ->.
  assert (Hks : m ∈ ss \/ m ∈ d_mixes t) by (destruct Hk as [Hk|Hk]; [left; by apply sol_numbers|by right]).
  destruct (decide (ss = [])) as [E1|E1], (decide (d_mixes t = [])) as [E2|E2].
  - rewrite E1, E2 in Hks. destruct Hks as [?%elem_of_nil|?%elem_of_nil]; done.
  - destruct (Hx E2) as [H1 H2]. rewrite (Es E1). simpl. rewrite E1 in Hks.
    destruct Hks as [?%elem_of_nil|Hks]; [done|]. apply H2 in Hks. destruct (Z.ltb_spec n (next_number (d_mixes t) - 1)); lia.
  - destruct (Hs E1) as [H1 H2]. rewrite (Ex E2). rewrite E2 in Hks.
    destruct Hks as [Hks|?%elem_of_nil]; [|done]. apply H2 in Hks.
    destruct (Z.eqb_spec (next_number ss) 0); [lia|]. destruct (Z.ltb_spec (next_number ss - 1) (0 - 1)); lia.
  - destruct (Hs E1) as [H1 H2]. destruct (Hx E2) as [H3 H4].
    destruct (Z.eqb_spec (next_number ss) 0); [lia|].
    destruct (Z.ltb_spec (next_number ss - 1) (next_number (d_mixes t) - 1));
    destruct Hks as [Hks|Hks]; [apply H2 in Hks|apply H4 in Hks|apply H2 in Hks|apply H4 in Hks]; lia.
Qed.

(** ** The storage bin *)
Definition bin_ok (t : defined) (bin : gmap Z sol) : Prop :=
  forall n s, (0 <= n)%Z -> bin !! n = Some s -> d_sols t !! n = Some s.
Lemma copy_ok t n bin : bin_ok t bin -> bin_ok t (copy_solution t n bin).
Proof.
  intros H. unfold copy_solution. destruct (d_sols t !! n) as [s|] eqn:E; [|done].
  intros k s' Hk. destruct (decide (k = n)) as [->|Hne]; [rewrite lookup_insert; congruence|].
  rewrite lookup_insert_ne by done. by apply H.
Qed.
Lemma fetch_first_ok t n bin : bin_ok t bin -> bin_ok t (fetch_first t n bin).
Proof.
  intros H. unfold fetch_first. destruct (bin !! n); [done|]. destruct (Z.leb_spec 0 n); [by apply copy_ok|].
  intros k s' Hk. rewrite lookup_insert_ne by lia. by apply H.
Qed.
Lemma fetch_second_ok t n bin : bin_ok t bin -> bin_ok t (fetch_second t n bin).
Proof. intros H. unfold fetch_second. destruct (bin !! n); [done|]. by apply copy_ok. Qed.
Lemma copy_lookup t n bin : bin !! n = None -> copy_solution t n bin !! n = d_sols t !! n.
Proof. intros H. unfold copy_solution. destruct (d_sols t !! n) eqn:E; [by rewrite lookup_insert|done]. Qed.
Lemma fetch_first_lookup t n bin : bin_ok t bin -> (0 <= n)%Z -> fetch_first t n bin !! n = d_sols t !! n.
Proof.
  intros H Hn. unfold fetch_first. destruct (bin !! n) as [s|] eqn:E.
  - rewrite E. symmetry. by apply H.
  - destruct (Z.leb_spec 0 n); [|lia]. by apply copy_lookup.
Qed.
Lemma fetch_second_lookup t n bin : bin_ok t bin -> (0 <= n)%Z -> fetch_second t n bin !! n = d_sols t !! n.
Proof.
  intros H Hn. unfold fetch_second. destruct (bin !! n) as [s|] eqn:E.
  - rewrite E. symmetry. by apply H.
  - by apply copy_lookup.
Qed.
Lemma fetch_second_keeps t n m s bin : bin !! m = Some s -> fetch_second t n bin !! m = Some s.
Proof.
  intros H. unfold fetch_second. destruct (bin !! n) eqn:E; [done|]. unfold copy_solution.
  destruct (d_sols t !! n); [|done]. rewrite lookup_insert_ne; [done|]. congruence.
Qed.

(** ** One boundary condition *)
Lemma Qc_second b2 fr i :
  let n2 := match b2 !! i with Some n => n | None => (-1)%Z end in
  ((0 <=? n2)%Z && Qc_ltb 0 (1 - fraction fr i) = true -> second b2 fr i n2) /\
  ((0 <=? n2)%Z && Qc_ltb 0 (1 - fraction fr i) = false -> forall n, ~ second b2 fr i n).
Proof.
  cbn zeta.
  assert (Hf : forall f, Qc_ltb 0 (1 - f) = true <-> f < 1) by (intros f; rewrite Qc_ltb_true; symmetry; apply Qclt_minus_iff).
  unfold second. split.
  - intros [H1 H2]%andb_true_iff. apply Hf in H2. destruct (b2 !! i) as [n|] eqn:E; [|done].
    apply Z.leb_le in H1. done.
  - intros H n (E & Hn & Hlt). rewrite E in H. apply Hf in Hlt. rewrite Hlt in H. apply Z.leb_le in Hn.
    rewrite Hn in H. done.
Qed.

Definition same_parts (ps parts : list (sol * Qc)) : Prop :=
  (forall g, weighted g ps = weighted g parts) /\ (proper parts -> proper ps) /\
  (forall s f, (s, f) ∈ ps -> exists f', (s, f') ∈ parts) /\ ps <> [] /\
  ((forall s f, (s, f) ∈ parts -> 0 < f) -> forall s f, (s, f) ∈ ps -> 0 < f).

Lemma proper_swap a b : proper [a; b] -> proper [b; a].
Proof.
  intros [H1 (s & f & H2 & H3)]. split.
  - intros s' f' Hin. apply H1. rewrite !elem_of_cons in *. tauto.
  - exists s, f. split; [|done]. rewrite !elem_of_cons in *. tauto.
Qed.

Lemma one_boundary_spec t b1 b2 fr i bin parts : numbered t -> bin_ok t bin -> asked t b1 b2 fr i parts ->
  exists bin' ps, one_boundary t b1 b2 fr i bin = Ret (bin', mix_parts ps sol_zero) /\ bin_ok t bin' /\
    same_parts ps parts.
Proof.
  intros Hn Hb Ha. destruct (Qc_second b2 fr i) as [Q1 Q2]. unfold one_boundary.
  change (match fr !! i with Some f => f | None => 1 end) with (fraction fr i).
  destruct Ha as [n m s Hi Hs E Hno|n m s n2 s2 Hi Hs E Hsec E2];
    destruct (first_number_spec t n m Hn Hs) as [Em Hm]; unfold vat; rewrite Hi; cbn [obind]; rewrite Em;
    pose proof (fetch_first_ok t m bin Hb) as Hb1; pose proof (fetch_first_lookup t m bin Hb Hm) as L1;
    rewrite E in L1.
  - destruct ((0 <=? _)%Z && _) eqn:Eb; [by destruct (Hno _ (Q1 eq_refl))|].
    eexists _, [(s, fraction fr i)]. split; [|split; [exact Hb1|by split_and!; eauto]].
    unfold sol_mix, mix_add, mix_found. by rewrite L1.
  - destruct ((0 <=? _)%Z && _) eqn:Eb; [|by destruct (Q2 eq_refl n2)].
    destruct Hsec as (H2 & Hn2 & Hlt). rewrite H2 in Eb |- *.
    pose proof (fetch_second_ok t n2 _ Hb1) as Hb2.
    pose proof (fetch_second_lookup t n2 _ Hb1 Hn2) as L2. rewrite E2 in L2.
    pose proof (fetch_second_keeps t n2 m s _ L1) as L3.
    unfold sol_mix. cbn [mix_add]. destruct (Z.eqb_spec n2 m) as [->|Hne]; [|destruct (Z.ltb_spec n2 m)].
    + eexists _, [(s, fraction fr i + (1 - fraction fr i))]. split; [cbn [mix_found]; by rewrite L3|].
      split; [exact Hb2|]. rewrite E in E2. injection E2 as <-. split_and!.
      * intros g. cbn. ring.
      * intros [P1 (s' & f' & P2 & P3)].
        assert (Ef : fraction fr i + (1 - fraction fr i) = 1) by ring. rewrite Ef. split.
        -- intros s'' f'' [= -> ->]%elem_of_list_singleton. split; [done|]. intros _.
           rewrite !elem_of_cons, elem_of_nil in P2. destruct P2 as [[= -> ->]|[[= -> ->]|[]]].
           ++ apply (P1 s (fraction fr i)); [left|done].
           ++ apply (P1 s (1 - fraction fr i)); [right; left|done].
        -- exists s, 1. split; [left|done].
      * intros s' f' [= -> ->]%elem_of_list_singleton. eexists. left.
      * done.
      * intros _ s' f' [= -> ->]%elem_of_list_singleton.
        assert (Ef : fraction fr i + (1 - fraction fr i) = 1) by ring. by rewrite Ef.
    + eexists _, [(s2, 1 - fraction fr i); (s, fraction fr i)].
      split; [cbn [mix_found]; by rewrite L2, L3|]. split; [exact Hb2|]. split_and!.
      * intros g. cbn. ring.
      * apply proper_swap.
      * intros s' f' Hin. exists f'. rewrite !elem_of_cons in *. tauto.
      * done.
      * intros Hf s' f' Hin. apply (Hf s' f'). rewrite !elem_of_cons in *. tauto.
    + eexists _, [(s, fraction fr i); (s2, 1 - fraction fr i)].
      split; [cbn [mix_found]; by rewrite L2, L3|]. split; [exact Hb2|]. by split_and!; eauto.
Qed.

(** ** The loop *)
Lemma boundaries_spec t row w b1 b2 fr todo i bin out :
  numbered t -> bin_ok t bin -> length out = (length b1 * w)%nat -> (i + todo <= length b1)%nat ->
  (forall j, (i <= j < i + todo)%nat -> exists parts, asked t b1 b2 fr j parts) ->
  (forall s, exists d, row s = Ret d /\ length d = w) ->
  exists out', boundaries t row w b1 b2 fr i todo bin out = Ret out' /\ length out' = length out /\
    (forall k j, (k < w)%nat -> (j < length b1)%nat -> ~ (i <= j < i + todo)%nat ->
       out' !! (length b1 * k + j)%nat = out !! (length b1 * k + j)%nat) /\
    (forall j parts, (i <= j < i + todo)%nat -> asked t b1 b2 fr j parts ->
       exists ps d, same_parts ps parts /\ row (mix_parts ps sol_zero) = Ret d /\
         forall k, (k < w)%nat -> out' !! (length b1 * k + j)%nat = d !! k).
Proof.
  intros Hn. revert i bin out. induction todo as [|todo IH]; intros i bin out Hb Hl Hi Hask Hrow.
  { exists out. split_and!; [done..|]. intros j parts Hj. lia. }
  cbn [boundaries]. destruct (Hask i) as [parts Ha]; [lia|].
  destruct (one_boundary_spec t b1 b2 fr i bin parts Hn Hb Ha) as (bin' & ps & E & Hb' & Hp).
  rewrite E. cbn [obind fst snd]. destruct (Hrow (mix_parts ps sol_zero)) as (d & Ed & Ld). rewrite Ed. cbn [obind].
  destruct (scatter_comps_spec (length b1) w i d w 0 out) as (out1 & E1 & L1 & S1); [done|lia..|].
  rewrite E1. cbn [obind].
  destruct (IH (S i) bin' out1) as (out' & E' & L' & K' & S'); [done|congruence|lia| |done|].
  { intros j Hj. apply Hask. lia. }
  exists out'. split_and!; [done|congruence| |].
  - intros k j Hk Hj Hno. rewrite K' by lia. rewrite S1 by done. rewrite decide_False by lia. done.
  - intros j parts' Hj Ha'. destruct (decide (j = i)) as [->|Hne].
    + destruct (one_boundary_spec t b1 b2 fr i bin parts' Hn Hb Ha') as (bin2 & ps' & E2 & _ & Hp').
      rewrite E in E2. injection E2 as _ E2. exists ps', d. split; [done|]. split; [by rewrite <- E2|].
      intros k Hk. rewrite K' by lia. rewrite S1 by lia. rewrite decide_True by lia. done.
    + apply S'; [lia|done].
Qed.

(** ** Elements of a mixture *)
Lemma Qc_element_sum l e z : fold_left Qcplus (amounts_of l e) z = z + element_sum 0 Qcplus l e.
Proof.
  unfold element_sum. generalize (amounts_of l e). intros vs. revert z. induction vs as [|v vs IH]; intros z; simpl; [ring|].
  rewrite IH, (IH (0 + v)). ring.
Qed.
Lemma element_sum_cons n (v : Qc) l e :
  element_sum 0 Qcplus ((n, v) :: l) e = (if decide (element n = e) then v else 0) + element_sum 0 Qcplus l e.
Proof.
  unfold element_sum at 1. simpl. case_decide; simpl; [|unfold element_sum; ring]. rewrite Qc_element_sum. ring.
Qed.
Lemma element_sum_set k x (l : nmap Qc) e : ordered l ->
  element_sum 0 Qcplus (nd_set k x l) e =
  element_sum 0 Qcplus l e + if decide (element k = e) then x - listed l k else 0.
Proof.
  induction l as [|[n v] l IH]; intros Ho; cbn [nd_set].
  { rewrite element_sum_cons. simpl. unfold element_sum. simpl. case_decide; ring. }
  pose proof Ho as [Ho' Hb]%ordered_cons. destruct (scmp_spec k n) as [H|H|H].
  - rewrite (element_sum_cons k). rewrite listed_none; [case_decide; ring|].
    intros [w Hw]. apply elem_of_cons in Hw as [[= -> ->]|Hw]; [by apply before_irrefl in H|].
    apply Hb in Hw. apply (before_irrefl k). by eapply before_trans.
  - subst n. rewrite !element_sum_cons. simpl. rewrite (decide_True (P := k = k)) by done. rewrite (listed_none l k).
    + case_decide; ring.
    + intros [w Hw]. by apply Hb, before_irrefl in Hw.
  - rewrite !element_sum_cons, IH by done. simpl. rewrite (decide_False (P := n = k)); [ring|].
    intros ->. by apply before_irrefl in H.
Qed.
Lemma ext_fold_elements f l acc e : ordered acc ->
  element_sum 0 Qcplus (fold_left (ext_step f) l acc) e = element_sum 0 Qcplus acc e + f * element_sum 0 Qcplus l e.
Proof.
  revert acc. induction l as [|[m v] l IH]; intros acc Ho; cbn [fold_left].
  { unfold element_sum at 3. simpl. ring. }
  rewrite IH by by apply ext_step_ordered. rewrite element_sum_cons.
  assert (E : element_sum 0 Qcplus (ext_step f acc (m, v)) e =
              element_sum 0 Qcplus acc e + if decide (element m = e) then f * v else 0).
  { unfold ext_step. cbn [fst snd]. pose proof (listed_find acc m Ho) as Hm.
    destruct (nd_find m acc) as [y|]; rewrite element_sum_set, Hm by done; case_decide; ring. }
  rewrite E. case_decide; ring.
Qed.
Lemma mix_parts_elements parts s e : tidy s ->
  element_sum 0 Qcplus (s_totals (mix_parts parts s)) e =
  element_sum 0 Qcplus (s_totals s) e + weighted (fun a => element_sum 0 Qcplus (s_totals a) e) parts.
Proof.
  unfold mix_parts. revert s. induction parts as [|[a x] parts IH]; intros s Hs; simpl; [ring|].
  rewrite IH by by apply sol_add_tidy.
  assert (E : element_sum 0 Qcplus (s_totals (sol_add a x s)) e =
              element_sum 0 Qcplus (s_totals s) e + x * element_sum 0 Qcplus (s_totals a) e).
  { unfold sol_add. destruct (Qc_zerob x) eqn:Ez.
    - apply Qc_zerob_true in Ez. subst. ring.
    - cbn [s_totals]. unfold nd_add_extensive. by apply (ext_fold_elements x (s_totals a) (s_totals s)). }
  rewrite E. ring.
Qed.

(** Names of a mixture are names of its parts. *)
Lemma ext_fold_named f l acc n : ordered acc -> named (fold_left (ext_step f) l acc) n -> named acc n \/ named l n.
Proof.
  revert acc. induction l as [|[m v] l IH]; intros acc Ho H; cbn [fold_left] in H; [by left|].
  apply IH in H; [|by apply ext_step_ordered]. destruct H as [[w Hw]|[w Hw]].
  - unfold ext_step in Hw. cbn [fst snd] in Hw.
    destruct (nd_find m acc); apply nd_set_elem in Hw as [[-> _]|[_ Hw]]; try done;
      solve [right; exists v; left|left; by exists w].
  - right. exists w. by right.
Qed.
Lemma mix_parts_named parts s n : tidy s -> named (s_totals (mix_parts parts s)) n ->
  named (s_totals s) n \/ exists a x, (a, x) ∈ parts /\ named (s_totals a) n.
Proof.
  unfold mix_parts. revert s. induction parts as [|[a x] parts IH]; intros s Hs H; simpl in H; [by left|].
  apply IH in H; [|by apply sol_add_tidy]. destruct H as [H|(b & y & Hin & H)].
  - unfold sol_add in H. destruct (Qc_zerob x); [by left|]. cbn [s_totals] in H. unfold nd_add_extensive in H.
    apply (ext_fold_named x (s_totals a) (s_totals s) n Hs) in H as [H|H]; [by left|].
    right. exists a, x. split; [left|done].
  - right. exists b, y. split; [by right|done].
Qed.
Lemma mix_parts_wf parts : (forall s f, (s, f) ∈ parts -> wf_totals s) -> wf_totals (mix_parts parts sol_zero).
Proof.
  intros H. assert (Hz : tidy sol_zero) by constructor. split; [by apply mix_parts_tidy|].
  intros n v Hin. destruct (mix_parts_named parts sol_zero n Hz) as [[w Hw]|(a & x & Ha & w & Hw)].
  - by exists v.
  - by apply elem_of_nil in Hw.
  - destruct (H a x Ha) as [_ Hw']. by apply (Hw' n w).
Qed.

Lemma weighted_ext g h ps : (forall s f, (s, f) ∈ ps -> g s = h s) -> weighted g ps = weighted h ps.
Proof.
  induction ps as [|[s f] ps IH]; intros H; simpl; [done|]. rewrite (H s f) by left. rewrite IH; [done|].
  intros s' f' Hin. apply (H s' f'). by right.
Qed.
Lemma weighted_minus g h ps : weighted (fun s => g s - h s) ps = weighted g ps - weighted h ps.
Proof. induction ps as [|[s f] ps IH]; simpl; [ring|]. rewrite IH. ring. Qed.
Lemma weighted_scale a g ps : weighted (fun s => a * g s) ps = a * weighted g ps.
Proof. induction ps as [|[s f] ps IH]; simpl; [ring|]. rewrite IH. ring. Qed.

Lemma weighted_scale_r a g ps : weighted (fun s => g s * a) ps = weighted g ps * a.
Proof. induction ps as [|[s f] ps IH]; simpl; [ring|]. rewrite IH. ring. Qed.

(** Component amounts of a mixture. *)
Lemma mix_components c k ps x : component_moles c (mix_parts ps sol_zero) k = Some x ->
  x = weighted (moles_of c k) ps.
Proof.
  destruct (mix_conserves ps) as [Hext _].
  assert (He : forall e, element_sum 0 Qcplus (s_totals (mix_parts ps sol_zero)) e =
                         weighted (fun a => element_sum 0 Qcplus (s_totals a) e) ps).
  { intros e. rewrite mix_parts_elements by constructor. unfold element_sum at 1. simpl. ring. }
  assert (H1 : s_h (mix_parts ps sol_zero) = weighted s_h ps) by (apply Hext; by left).
  assert (H2 : s_o (mix_parts ps sol_zero) = weighted s_o ps) by (apply Hext; right; by left).
  assert (H3 : s_cb (mix_parts ps sol_zero) = weighted s_cb ps) by (apply Hext; do 2 right; by left).
  assert (H4 : s_mw (mix_parts ps sol_zero) = weighted s_mw ps) by (apply Hext; do 3 right; by left).
  unfold component_moles, moles_of, component_moles. rewrite H1, H2, H3, H4.
  unfold Qcdiv. generalize (/ default 0 (c_gfw c !! 0%nat)) (qz 1000) (qz 2). intros g q1000 q2.
  destruct (c_h2o c).
  - destruct k as [|[|[|[|k]]]].
    + intros [= <-]. cbn [default]. unfold id. by rewrite !weighted_scale_r.
    + intros [= <-]. cbn [default]. unfold id. by rewrite weighted_minus, weighted_scale, !weighted_scale_r.
    + intros [= <-]. cbn [default]. unfold id. by rewrite weighted_minus, !weighted_scale_r.
    + intros [= <-]. done.
    + destruct (c_comps c !! S (S (S (S k)))) as [n|]; [|done]. intros [= <-]. apply He.
  - destruct k as [|[|[|k]]]; [by intros [= <-]..|].
    destruct (c_comps c !! S (S (S k))) as [n|]; [|done]. intros [= <-]. apply He.
Qed.

(** ** Whatever the numbers, the loop ends *)
Lemma boundaries_total t row w b1 b2 fr todo i bin out :
  length out = (length b1 * w)%nat -> (i + todo <= length b1)%nat ->
  (forall s, exists d, row s = Ret d /\ length d = w) ->
  exists out', boundaries t row w b1 b2 fr i todo bin out = Ret out' /\ length out' = length out.
Proof.
  revert i bin out. induction todo as [|todo IH]; intros i bin out Hl Hi Hrow; [by exists out|].
  cbn [boundaries].
  assert (E : exists r, one_boundary t b1 b2 fr i bin = Ret r).
  { unfold one_boundary, vat. destruct (lookup_lt_is_Some_2 b1 i) as [n ->]; [lia|]. cbn [obind].
    destruct (_ && _); by eexists. }
  destruct E as [r ->]. cbn [obind]. destruct (Hrow r.2) as (d & -> & Ld). cbn [obind].
  destruct (scatter_comps_spec (length b1) w i d w 0 out) as (out1 & E1 & L1 & _); [done|lia..|].
  rewrite E1. cbn [obind]. destruct (IH (S i) r.1 out1) as (out' & E' & L'); [congruence|lia|done|].
  exists out'. split; [done|congruence].
Qed.

Lemma conc_row_total c s : comps_ok c -> Forall (fun g => 0 < g) (c_gfw c) ->
  exists d, conc_row c s = Ret d /\ length d = length (c_comps c).
Proof. intros H1 H2. destruct (cell_out_spec c (s_vol s) (s_dens s) s H1 H2) as (d & E & L & _). by exists d. Qed.

(** ** Species *)
Lemma put_species_spec index l d :
  NoDup l.*1 -> (forall n x, (n, x) ∈ l -> exists j, index !! n = Some j /\ (j < length d)%nat) ->
  (forall n n' x x' j, (n, x) ∈ l -> (n', x') ∈ l -> index !! n = Some j -> index !! n' = Some j -> n = n') ->
  exists d', put_species index l d = Ret d' /\ length d' = length d /\
    (forall n x j, (n, x) ∈ l -> index !! n = Some j -> d' !! j = Some x) /\
    (forall j, (forall n x, (n, x) ∈ l -> index !! n <> Some j) -> d' !! j = d !! j).
Proof.
  revert d. induction l as [|[n x] l IH]; intros d Hnd Hdef Hinj; cbn [put_species].
  { exists d. split_and!; [done..| |done]. by intros n x j ?%elem_of_nil. }
  apply NoDup_cons in Hnd as [Hni Hnd]. destruct (Hdef n x) as (j0 & E0 & L0); [left|].
  rewrite E0. cbn [default]. unfold id, vset. rewrite decide_True by done. cbn [obind].
  destruct (IH (<[j0 := x]> d)) as (d' & E & L & S1 & S2); [done| | |].
  { intros m y Hin. rewrite insert_length. apply (Hdef m y). by right. }
  { intros m m' y y' j H1 H2. apply (Hinj m m' y y'); by right. }
  exists d'. rewrite insert_length in L. split_and!; [done|done| |].
  - intros m y j [[= -> ->]|Hin]%elem_of_cons Hj; [|by apply (S1 m)].
    rewrite E0 in Hj. injection Hj as <-. rewrite S2; [by apply list_lookup_insert|].
    intros m' y' Hin' Hj'. assert (m' = n) as ->.
    { apply (Hinj m' n y' x j0); [by right|left|done..]. }
    apply Hni. apply elem_of_list_fmap. by exists (n, y').
  - intros j Hj. rewrite S2; [|intros m y Hin; apply (Hj m y); by right].
    apply list_lookup_insert_ne. intros ->. by apply (Hj n x); [left|].
Qed.
Lemma by_number_elem m n x : (n, x) ∈ by_number m <-> m !! n = Some x.
Proof. unfold by_number. rewrite merge_sort_Permutation. apply elem_of_map_to_list. Qed.
Lemma by_number_nodup m : NoDup (by_number m).*1.
Proof.
  unfold by_number. rewrite (merge_sort_Permutation num_le (map_to_list m)). apply NoDup_fst_map_to_list.
Qed.

(** The species of a mixture are species of its parts. *)
Lemma mix_species_from ps s k : is_Some (s_species (mix_parts ps s) !! k) ->
  is_Some (s_species s !! k) \/ exists a f, (a, f) ∈ ps /\ is_Some (s_species a !! k).
Proof.
  unfold mix_parts. revert s. induction ps as [|[a f] ps IH]; intros s H; simpl in H; [by left|].
  apply IH in H as [H|(b & g & Hin & H)].
  - unfold sol_add in H. destruct (Qc_zerob f); [by left|]. cbn [s_species] in H.
    destruct (s_species s !! k) as [y|] eqn:E1; [left; by eexists|].
    destruct (s_species a !! k) as [z|] eqn:E2.
    2: { unfold add_species in H. rewrite lookup_union_with, E1, E2 in H. by destruct H. }
    right. exists a, f. split; [left|by eexists].
  - right. exists b, g. split; [by right|done].
Qed.

Lemma mix_species_some ps n : ps <> [] -> (forall s f, (s, f) ∈ ps -> 0 < f /\ is_Some (s_species s !! n)) ->
  is_Some (s_species (mix_parts ps sol_zero) !! n).
Proof.
  intros Hne H.
  assert (Hk : forall qs s, (forall a f, (a, f) ∈ qs -> is_Some (s_species a !! n)) ->
    is_Some (s_species s !! n) -> is_Some (s_species (mix_parts qs s) !! n)).
  { clear. unfold mix_parts. induction qs as [|[a f] qs IH]; intros s H Hs; simpl; [done|].
    apply IH; [intros b g Hin; apply (H b g); by right|]. unfold sol_add. destruct (Qc_zerob f); [done|].
    cbn [s_species]. unfold add_species. rewrite lookup_union_with. destruct (H a f) as [y ->]; [left|].
    destruct Hs as [z ->]. by eexists. }
  destruct ps as [|[a f] ps]; [done|]. change (mix_parts ((a, f) :: ps) sol_zero) with (mix_parts ps (sol_add a f sol_zero)).
  apply Hk; [intros b g Hin; apply (H b g); by right|]. destruct (H a f) as [Hf [y Hy]]; [left|].
  unfold sol_add. rewrite (proj2 (Qc_zerob_false f)) by by apply Qclt_ne. cbn [s_species]. unfold add_species.
  rewrite lookup_union_with, Hy. cbn [sol_zero s_species]. rewrite lookup_empty. by eexists.
Qed.
