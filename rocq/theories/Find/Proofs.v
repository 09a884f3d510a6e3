(** Supporting lemmas for the component and name lists. *)
From Coq Require Import String Sorting.Sorted QArith Qcanon Relations.
From stdpp Require Import prelude strings.
From Verif.Base Require Import Result.
From Verif.Names Require Import Model Spec Proofs.
From Verif.Find Require Import Model Spec.
Open Scope string_scope.
Open Scope list_scope.

(** ** Sets of names *)
Lemma elem_ins x y l : x ∈ ins y l <-> x = y \/ x ∈ l.
Proof.
  induction l as [|z l IH]; simpl; [by rewrite elem_of_list_singleton, elem_of_nil; tauto|].
  destruct (scmp_spec y z) as [H|H|H].
  - by rewrite !elem_of_cons.
  - subst. rewrite elem_of_cons. tauto.
  - rewrite !elem_of_cons, IH. tauto.
Qed.
Lemma elem_inss x ys l : x ∈ inss ys l <-> x ∈ ys \/ x ∈ l.
Proof.
  unfold inss. revert l. induction ys as [|y ys IH]; intros l; simpl.
  - rewrite elem_of_nil. tauto.
  - rewrite IH, elem_ins, elem_of_cons. tauto.
Qed.
Lemma sorted_cons x l : sorted (x :: l) <-> sorted l /\ forall y, y ∈ l -> before x y.
Proof.
  unfold sorted. split.
  - intros H. apply StronglySorted_inv in H as [H1 H2]. split; [done|]. by apply Forall_forall.
  - intros [H1 H2]. constructor; [done|]. by apply Forall_forall.
Qed.
Lemma sorted_ins x l : sorted l -> sorted (ins x l).
Proof.
  induction l as [|z l IH]; intros Hs; simpl; [by repeat constructor|].
  pose proof Hs as [Hs' Hb]%sorted_cons.
  destruct (scmp_spec x z) as [H|H|H].
  - apply sorted_cons. split; [done|]. intros y [->|Hy]%elem_of_cons; [done|].
    eapply before_trans; [done|]. by apply Hb.
  - done.
  - apply sorted_cons. split; [by apply IH|]. intros y [->|Hy]%elem_ins; [done|by apply Hb].
Qed.
Lemma sorted_inss xs l : sorted l -> sorted (inss xs l).
Proof.
  unfold inss. revert l. induction xs as [|x xs IH]; intros l H; simpl; [done|].
  by apply IH, sorted_ins.
Qed.
Lemma sorted_nodup l : sorted l -> NoDup l.
Proof.
  induction l as [|x l IH]; [constructor|]. intros [H1 H2]%sorted_cons. constructor; [|by apply IH].
  intros Hx. by apply H2, before_irrefl in Hx.
Qed.
Lemma sorted_ext l l' : sorted l -> sorted l' -> (forall x, x ∈ l <-> x ∈ l') -> l = l'.
Proof.
  revert l'. induction l as [|x l IH]; intros l' H1 H2 E.
  - destruct l' as [|y l']; [done|]. assert (y ∈ []) as ?%elem_of_nil; [|done]. apply E. by left.
  - destruct l' as [|y l']; [assert (x ∈ []) as ?%elem_of_nil; [|done]; apply E; by left|].
    pose proof H1 as [H1' B1]%sorted_cons. pose proof H2 as [H2' B2]%sorted_cons.
    assert (x = y) as <-.
    { assert (Hx : x ∈ y :: l') by (apply E; by left).
      assert (Hy : y ∈ x :: l) by (apply E; by left).
      apply elem_of_cons in Hx as [->|Hx]; [done|]. apply elem_of_cons in Hy as [->|Hy]; [done|].
      apply B2 in Hx. apply B1 in Hy. by apply before_asym in Hy. }
    f_equal. apply IH; [done..|]. intros z. split; intros Hz.
    + assert (Hz' : z ∈ x :: l') by (apply E; by right).
      apply elem_of_cons in Hz' as [->|?]; [|done]. by apply B1, before_irrefl in Hz.
    + assert (Hz' : z ∈ x :: l) by (apply E; by right).
      apply elem_of_cons in Hz' as [->|?]; [|done]. by apply B2, before_irrefl in Hz.
Qed.
Lemma sorted_nil : sorted [].
Proof. constructor. Qed.
Lemma existsb_eqb x l : existsb (String.eqb x) l = true <-> x ∈ l.
Proof.
  rewrite existsb_exists. split.
  - intros (y & Hy & E). apply String.eqb_eq in E as ->. by apply elem_of_list_In.
  - intros H. exists x. split; [by apply elem_of_list_In|by apply String.eqb_refl].
Qed.

(** ** The engine's component list *)
Lemma root_name_element s : root_name s = element s.
Proof.
  induction s as [|c s IH]; simpl; [done|]. rewrite IH.
  case_decide as H.
  - subst. done.
  - destruct (Ascii.eqb c lparen) eqn:E; [|done]. by apply Ascii.eqb_eq in E.
Qed.
Lemma part_names_holds p n : n ∈ part_names p <-> holds p n.
Proof.
  destruct p as [l|cs]; simpl.
  - split; [by constructor|]. by inversion 1.
  - split.
    + intros H. apply elem_of_list_In, in_concat in H as (l & Hl & Hn).
      apply in_map_iff in Hl as ([f m] & El & Hc). simpl in El.
      destruct (Qc_eq_bool m 0) eqn:E; [subst l; done|]. subst l.
      eapply holds_phases; [by apply elem_of_list_In| |by apply elem_of_list_In].
      intros ->. unfold Qc_eq_bool in E. by destruct (Qcanon.Qc_eq_dec (Q2Qc 0) (Q2Qc 0)).
    + inversion 1 as [|? f m ? Hc Hm Hn]; subst. apply elem_of_list_In, in_concat.
      exists f. split; [|by apply elem_of_list_In]. apply in_map_iff. exists (f, m).
      split; [|by apply elem_of_list_In]. simpl. destruct (Qc_eq_bool m 0) eqn:E; [|done].
      by apply Qc_eq_bool_correct in E.
Qed.
Lemma accumulate_spec ps : sorted (accumulate ps) /\
  forall n, n ∈ accumulate ps <-> exists p, p ∈ ps /\ holds p n.
Proof.
  unfold accumulate.
  assert (G : forall acc, sorted acc ->
    sorted (fold_left (fun acc p => inss (part_names p) acc) ps acc) /\
    forall n, n ∈ fold_left (fun acc p => inss (part_names p) acc) ps acc <->
      n ∈ acc \/ exists p, p ∈ ps /\ holds p n).
  { induction ps as [|p ps IH]; intros acc Ha; simpl.
    - split; [done|]. intros n. split; [tauto|]. intros [H|(p & ?%elem_of_nil & _)]; done.
    - destruct (IH (inss (part_names p) acc)) as [I1 I2]; [by apply sorted_inss|].
      split; [done|]. intros n. rewrite I2, elem_inss, part_names_holds. split.
      + intros [[H|H]|(p' & H1 & H2)]; [right; exists p; split; [by left|done]|by left|].
        right. exists p'. split; [by right|done].
      + intros [H|(p' & [->|H1]%elem_of_cons & H2)]; [tauto|tauto|]. right. by exists p'. }
  destruct (G [] sorted_nil) as [G1 G2]. split; [done|]. intros n. rewrite G2, elem_of_nil. tauto.
Qed.
Lemma add_primaries_elem ms ns acc n : n ∈ fold_left (add_primary ms) ns acc <->
  n ∈ acc \/ exists k m, k ∈ ns /\ k <> "Charge" /\ element k = n /\ nd_find n ms = Some m /\ m_aq m = true.
Proof.
  revert acc. induction ns as [|k ns IH]; intros acc; simpl.
  - split; [tauto|]. intros [H|(k & m & ?%elem_of_nil & _)]; done.
  - rewrite IH. clear IH.
    assert (E : n ∈ add_primary ms acc k <-> n ∈ acc \/
      (k <> "Charge" /\ element k = n /\ exists m, nd_find n ms = Some m /\ m_aq m = true)).
    { unfold add_primary. destruct (String.eqb_spec k "Charge") as [->|Hk].
      - split; [tauto|]. intros [H|(H & _)]; done.
      - rewrite root_name_element. destruct (nd_find (element k) ms) as [m|] eqn:Em.
        + destruct (m_aq m) eqn:Ea.
          * rewrite elem_ins. split.
            -- intros [->|H]; [|tauto]. right. eauto.
            -- intros [H|(_ & <- & _)]; tauto.
          * split; [tauto|]. intros [H|(_ & <- & m' & E1 & E2)]; [done|]. congruence.
        + split; [tauto|]. intros [H|(_ & <- & m' & E1 & E2)]; [done|]. congruence. }
    rewrite E. split.
    + intros [[H|(H1 & H2 & m & H3 & H4)]|(k' & m & H1 & H2)].
      * by left.
      * right. exists k, m. split; [by left|done].
      * right. exists k', m. split; [by right|done].
    + intros [H|(k' & m & [->|H1]%elem_of_cons & H2 & H3 & H4 & H5)].
      * tauto.
      * left. right. eauto.
      * right. exists k', m. done.
Qed.
Lemma add_primaries_sorted ms ns acc : sorted acc -> sorted (fold_left (add_primary ms) ns acc).
Proof.
  revert acc. induction ns as [|k ns IH]; intros acc H; simpl; [done|]. apply IH.
  unfold add_primary. destruct (String.eqb k "Charge"); [done|].
  destruct (nd_find (root_name k) ms) as [m|]; [|done]. destruct (m_aq m); [by apply sorted_ins|done].
Qed.
Lemma sorted_filter f l : sorted l -> sorted (List.filter f l).
Proof.
  induction l as [|x l IH]; [done|]. intros [H1 H2]%sorted_cons. simpl.
  destruct (f x); [|by apply IH]. apply sorted_cons. split; [by apply IH|].
  intros y Hy. apply elem_of_list_In, filter_In in Hy as [Hy _]. apply H2. by apply elem_of_list_In.
Qed.
Lemma list_components_spec ms ps :
  sorted (list_components ms ps) /\
  forall n, n ∈ list_components ms ps <->
    n <> "H" /\ n <> "O" /\ n <> "Charge" /\ nd_find n ms = Some (Master true true) /\
    exists p k, p ∈ ps /\ holds p k /\ (k = n \/ element k = n).
Proof.
  unfold list_components. destruct (accumulate_spec ps) as [A1 A2]. split.
  { apply sorted_filter, add_primaries_sorted, A1. }
  intros n.
  assert (F : n ∈ List.filter (printed ms) (fold_left (add_primary ms) (accumulate ps) (accumulate ps)) <->
    n ∈ fold_left (add_primary ms) (accumulate ps) (accumulate ps) /\ printed ms n = true).
  { rewrite !elem_of_list_In. apply filter_In. }
  rewrite F. clear F. rewrite add_primaries_elem.
  assert (P : printed ms n = true <->
    n <> "H" /\ n <> "O" /\ n <> "Charge" /\ nd_find n ms = Some (Master true true)).
  { unfold printed. destruct (nd_find n ms) as [[[] []]|]; simpl;
      destruct (String.eqb_spec n "Charge"), (String.eqb_spec n "O"), (String.eqb_spec n "H"); simpl;
      split; try done; intros; try tauto; destruct_and?; try done. }
  rewrite P. clear P. split.
  - intros [[H|(k & m & H1 & H2 & H3 & H4 & H5)] (P1 & P2 & P3 & P4)]; split_and!; try done.
    + apply A2 in H as (p & Hp & Hh). exists p, n. split_and!; [done..|]. by left.
    + apply A2 in H1 as (p & Hp & Hh). exists p, k. split_and!; [done..|]. by right.
  - intros (P1 & P2 & P3 & P4 & p & k & Hp & Hh & Hk). split; [|done].
    destruct Hk as [->|Hk]; [left; apply A2; by exists p|].
    destruct (decide (k = "Charge")) as [->|Hne].
    { simpl in Hk. done. }
    right. exists k, (Master true true). split_and!; [apply A2; by exists p|done..].
Qed.

(** ** Merging solid solutions *)
Lemma common_spec a b : common a b = true <-> exists x, x ∈ a /\ x ∈ b.
Proof.
  unfold common. rewrite existsb_exists. split.
  - intros (x & Hx & E). exists x. split; [by apply existsb_eqb|by apply elem_of_list_In].
  - intros (x & Ha & Hb). exists x. split; [by apply elem_of_list_In|by apply existsb_eqb].
Qed.
Lemma split_common_some a js pre j post : split_common a js = Some (pre, j, post) ->
  js = pre ++ j :: post /\ common a j.2 = true.
Proof.
  revert pre. induction js as [|k js IH]; intros pre H; [done|]. simpl in H.
  destruct (common a k.2) eqn:E; [by injection H as <- <- <-|].
  destruct (split_common a js) as [[[pre' x] post']|]; [|done]. injection H as <- <- <-.
  destruct (IH pre') as [-> H']; done.
Qed.
Lemma split_common_none a js : split_common a js = None -> forall j, j ∈ js -> common a j.2 = false.
Proof.
  induction js as [|k js IH]; intros H j Hj; [by apply elem_of_nil in Hj|]. simpl in H.
  destruct (common a k.2) eqn:E; [done|]. destruct (split_common a js) as [[[? ?] ?]|] eqn:E2; [done|].
  apply elem_of_cons in Hj as [->|Hj]; [done|]. by apply IH.
Qed.
Lemma merge_round_some s s' : merge_round s = Some s' ->
  exists A x B j C, s = A ++ x :: B ++ j :: C /\ common x.2 j.2 = true /\
    s' = A ++ (x.1, inss j.2 x.2) :: B ++ (j.1, []) :: C.
Proof.
  revert s'. induction s as [|x s IH]; intros s' H; [done|]. simpl in H.
  destruct (split_common x.2 s) as [[[pre j] post]|] eqn:E.
  - injection H as <-. apply split_common_some in E as [-> E]. by exists [], x, pre, j, post.
  - destruct (merge_round s) as [r|]; [|done]. injection H as <-.
    destruct (IH r eq_refl) as (A & y & B & j & C & -> & Hc & ->).
    by exists (x :: A), y, B, j, C.
Qed.
Definition apart (s : ssets) : Prop := ForallOrdPairs (fun x y => common x.2 y.2 = false) s.
Lemma merge_round_none s : merge_round s = None -> apart s.
Proof.
  induction s as [|x s IH]; intros H; [constructor|]. simpl in H.
  destruct (split_common x.2 s) as [[[pre j] post]|] eqn:E; [done|].
  destruct (merge_round s) as [r|]; [done|]. constructor; [|by apply IH].
  apply Forall_forall. by apply split_common_none.
Qed.
Definition filled (s : ssets) : nat := length (List.filter (fun x => negb (length x.2 =? 0)%nat) s).
Lemma filled_app s t : filled (s ++ t) = (filled s + filled t)%nat.
Proof. unfold filled. by rewrite List.filter_app, app_length. Qed.
Lemma filled_cons x s : filled (x :: s) = ((if decide (x.2 = []) then 0 else 1) + filled s)%nat.
Proof. unfold filled. simpl. by destruct x as [n [|c cs]]. Qed.
Lemma filled_le s : filled s <= length s.
Proof. induction s as [|x s IH]; [done|]. rewrite filled_cons. simpl. case_decide; lia. Qed.
Lemma merge_round_filled s s' : merge_round s = Some s' -> S (filled s') = filled s.
Proof.
  intros (A & x & B & j & C & -> & Hc & ->)%merge_round_some.
  apply common_spec in Hc as (c & Hx & Hj).
  repeat (rewrite filled_app || rewrite filled_cons). cbn [snd].
  rewrite (decide_True (P := ([] : list string) = [])) by done.
  rewrite (decide_False (P := j.2 = [])); [|intros E; rewrite E in Hj; by apply elem_of_nil in Hj].
  rewrite (decide_False (P := x.2 = [])); [|intros E; rewrite E in Hx; by apply elem_of_nil in Hx].
  rewrite (decide_False (P := inss j.2 x.2 = [])); [lia|].
  intros E. assert (c ∈ inss j.2 x.2) as H by (apply elem_inss; by left). rewrite E in H.
  by apply elem_of_nil in H.
Qed.
Lemma merge_all_settled fuel s : filled s <= fuel -> apart (merge_all fuel s).
Proof.
  revert s. induction fuel as [|f IH]; intros s H; simpl.
  - apply merge_round_none. destruct (merge_round s) as [s'|] eqn:E; [|done].
    apply merge_round_filled in E. lia.
  - destruct (merge_round s) as [s'|] eqn:E; [|by apply merge_round_none].
    apply IH. apply merge_round_filled in E. lia.
Qed.

(** What merging keeps. *)
Definition merged (s0 s : ssets) : Prop :=
  Forall (fun x => sorted x.2) s /\
  (forall x, x ∈ s0 -> exists y, y ∈ s /\ forall c, c ∈ x.2 -> c ∈ y.2) /\
  (forall y c, y ∈ s -> c ∈ y.2 -> exists x, x ∈ s0 /\ c ∈ x.2) /\
  (forall y c d, y ∈ s -> c ∈ y.2 -> d ∈ y.2 -> linked s0 c d) /\
  (forall y c, y ∈ s -> c ∈ y.2 -> exists x, x ∈ s0 /\ x.1 = y.1 /\ x.2 <> [] /\ forall d, d ∈ x.2 -> d ∈ y.2).
Lemma merged_refl s : Forall (fun x => sorted x.2) s -> merged s s.
Proof.
  intros H. split_and!; [done|by eauto|by eauto| |].
  - intros y c d Hy Hc Hd. apply rt_step. by exists y.
  - intros y c Hy Hc. exists y. split_and!; [done..| |done]. intros E. rewrite E in Hc. by apply elem_of_nil in Hc.
Qed.
Lemma merged_round s0 s s' : merged s0 s -> merge_round s = Some s' -> merged s0 s'.
Proof.
  intros (M1 & M2 & M3 & M4 & M5) (A & x & B & j & C & -> & Hc & ->)%merge_round_some.
  apply common_spec in Hc as (k & Hx & Hj).
  assert (Ix : x ∈ A ++ x :: B ++ j :: C) by (apply elem_of_app; right; by left).
  assert (Ij : j ∈ A ++ x :: B ++ j :: C).
  { apply elem_of_app; right. right. apply elem_of_app. right. by left. }
  set (z := (x.1, inss j.2 x.2)). set (w := (j.1, []) : string * list string).
  assert (Back : forall y, y ∈ A ++ z :: B ++ w :: C -> y = z \/ y = w \/ y ∈ A ++ x :: B ++ j :: C).
  { intros y. rewrite !elem_of_app, !elem_of_cons, !elem_of_app, !elem_of_cons. tauto. }
  assert (Forth : forall y, y ∈ A ++ x :: B ++ j :: C -> y = x \/ y = j \/ y ∈ A ++ z :: B ++ w :: C).
  { intros y. rewrite !elem_of_app, !elem_of_cons, !elem_of_app, !elem_of_cons. tauto. }
  assert (Iz : z ∈ A ++ z :: B ++ w :: C) by (apply elem_of_app; right; by left).
  rewrite Forall_forall in M1. split_and!.
  - apply Forall_forall. intros y [->|[->|Hy]]%Back; [|constructor|by apply M1].
    apply sorted_inss. by apply M1.
  - intros y Hy. destruct (M2 y Hy) as (v & Hv & Hs). destruct (Forth v Hv) as [->|[->|Hv']].
    + exists z. split; [done|]. intros c Hc. apply elem_inss. right. by apply Hs.
    + exists z. split; [done|]. intros c Hc. apply elem_inss. left. by apply Hs.
    + by exists v.
  - intros y c [->|[->|Hy]]%Back Hc.
    + apply elem_inss in Hc as [Hc|Hc]; [by apply (M3 j)|by apply (M3 x)].
    + by apply elem_of_nil in Hc.
    + by apply (M3 y).
  - assert (Z : forall c, c ∈ z.2 -> linked s0 c k /\ linked s0 k c).
    { intros c Hc. apply elem_inss in Hc as [Hc|Hc]; split;
        [by apply (M4 j)|by apply (M4 j)|by apply (M4 x)|by apply (M4 x)]. }
    intros y c d [->|[->|Hy]]%Back Hc Hd.
    + eapply rt_trans; [apply Z, Hc|apply Z, Hd].
    + by apply elem_of_nil in Hc.
    + by apply (M4 y).
  - intros y c [->|[->|Hy]]%Back Hc.
    + destruct (M5 x k Ix Hx) as (v & Hv & E1 & E2 & E3). exists v. split_and!; [done..|].
      intros d Hd. apply elem_inss. right. by apply E3.
    + by apply elem_of_nil in Hc.
    + by apply (M5 y c).
Qed.
Lemma merged_all fuel s0 s : merged s0 s -> merged s0 (merge_all fuel s).
Proof.
  revert s. induction fuel as [|f IH]; intros s H; simpl; [done|].
  destruct (merge_round s) as [s'|] eqn:E; [|done]. apply IH. by eapply merged_round.
Qed.
Lemma elem_write s c n : (c, n) ∈ write_ss s <-> exists y, y ∈ s /\ c ∈ y.2 /\ n = y.1.
Proof.
  unfold write_ss. rewrite elem_of_list_In, in_concat. split.
  - intros (l & Hl & Hin). apply in_map_iff in Hl as (y & <- & Hy).
    apply in_map_iff in Hin as (d & [= -> <-] & Hd). exists y. rewrite !elem_of_list_In. done.
  - intros (y & Hy & Hc & ->). exists (map (fun c => (c, y.1)) y.2).
    apply elem_of_list_In in Hy, Hc. split; apply in_map_iff; [by exists y|by exists c].
Qed.
Lemma apart_elem s c x y : apart s -> x ∈ s -> y ∈ s -> c ∈ x.2 -> c ∈ y.2 -> x = y.
Proof.
  intros H. induction H as [|z s Hz H IH]; intros Hx Hy Cx Cy; [by apply elem_of_nil in Hx|].
  rewrite Forall_forall in Hz.
  apply elem_of_cons in Hx as [->|Hx]; apply elem_of_cons in Hy as [->|Hy]; [done| | |by apply IH].
  - apply Hz in Hy. assert (common z.2 y.2 = true) by (apply common_spec; by exists c). congruence.
  - apply Hz in Hx. assert (common z.2 x.2 = true) by (apply common_spec; by exists c). congruence.
Qed.
Lemma apart_nodup s : apart s -> Forall (fun x => sorted x.2) s -> NoDup (map fst (write_ss s)).
Proof.
  intros H. induction H as [|x s Hx H IH]; intros Hs; [constructor|].
  apply Forall_cons in Hs as [Hs1 Hs2]. unfold write_ss. simpl. rewrite map_app. apply NoDup_app.
  split_and!.
  - rewrite map_map. simpl. rewrite map_id. by apply sorted_nodup.
  - intros c Hc Hc'. rewrite map_map in Hc. simpl in Hc. rewrite map_id in Hc.
    apply elem_of_list_In, in_map_iff in Hc' as ([d n] & E & Hd). simpl in E. subst d.
    apply elem_of_list_In in Hd. apply (elem_write s c n) in Hd as (y & Hy & Hcy & _).
    rewrite Forall_forall in Hx. apply Hx in Hy.
    assert (common x.2 y.2 = true) by (apply common_spec; by exists c). congruence.
  - by apply IH.
Qed.

(** ** FindComponents *)
Section find.
  Context {D SP : Type} (one : D).
  Implicit Types (e : engine D SP) (l : lists D SP).

  Lemma find_components_comps h e l :
    l_comps (find_components one h e l).1 = new_components h (l_comps l) (e_comps e) /\
    l_gfw (find_components one h e l).1 =
      map (fun n => if String.eqb n "Charge" then one else e_gfw e n) (new_components h (l_comps l) (e_comps e)).
  Proof.
    unfold find_components, find_comps.
    set (l1 := set_comps l _ _).
    assert (S1 : l_comps (find_species e l1).1 = l_comps l1 /\ l_gfw (find_species e l1).1 = l_gfw l1).
    { unfold find_species. destruct (e_probe e _) as [[[s r] ph]|]; done. }
    destruct (find_species e l1) as [l2 b]. cbn [fst snd] in *. destruct b; [|done].
    assert (S2 : l_comps (find_others e l2).1 = l_comps l2 /\ l_gfw (find_others e l2).1 = l_gfw l2).
    { unfold find_others. destruct (andb _ _); [done|]. destruct (surf_loop _ _ _ _) as [sl b]. cbn [fst snd].
      destruct b; [|done]. destruct (ex_loop _ _ _) as [xl b]. cbn [fst snd]. destruct b; [|done].
      destruct (andb _ _); done. }
    cbn [fst]. destruct S1 as [S11 S12]. destruct S2 as [-> ->]. rewrite S11, S12. done.
  Qed.
  Lemma fixed_length (h : bool) : length (fixed h) = if h then 4%nat else 3%nat.
  Proof. by destruct h. Qed.
  Lemma drop_fixed (h : bool) (rest : list string) : drop (if h then 4%nat else 3%nat) (fixed h ++ rest) = rest.
  Proof. by destruct h. Qed.
  Lemma new_components_spec (h : bool) old new :
    exists rest, new_components h old new = fixed h ++ rest /\ sorted rest /\
      forall n, n ∈ rest <-> n ∈ new \/ n ∈ drop (if h then 4%nat else 3%nat) old.
  Proof.
    unfold new_components. eexists. split; [done|]. split; [apply sorted_inss, sorted_inss, sorted_nil|].
    intros n. rewrite !elem_inss, elem_of_nil. tauto.
  Qed.
  Lemma find_all_snoc h es e l : find_all one h (es ++ [e]) l = (find_components one h e (find_all one h es l)).1.
  Proof. unfold find_all. by rewrite fold_left_app. Qed.
  Lemma find_all_comps h es : es <> [] ->
    exists rest, l_comps (find_all one h es no_lists) = fixed h ++ rest /\ sorted rest /\
      forall n, n ∈ rest <-> exists e, e ∈ es /\ n ∈ e_comps e.
  Proof.
    induction es as [|e es IH] using rev_ind; [done|]. intros _.
    rewrite find_all_snoc. destruct (find_components_comps h e (find_all one h es no_lists)) as [-> _].
    destruct (decide (es = [])) as [->|Hne].
    - destruct (new_components_spec h [] (e_comps e)) as (rest & E & Hs & Hm). exists rest.
      split; [done|]. split; [done|]. intros n. rewrite Hm, drop_nil, elem_of_nil. split.
      + intros [H|[]]. exists e. split; [by left|done].
      + intros (e' & He & Hc). apply elem_of_list_singleton in He as ->. by left.
    - destruct (IH Hne) as (r0 & E0 & Hs0 & Hm0). rewrite E0.
      destruct (new_components_spec h (fixed h ++ r0) (e_comps e)) as (rest & E & Hs & Hm). exists rest.
      split; [done|]. split; [done|]. intros n. rewrite Hm, drop_fixed, Hm0. split.
      + intros [H|(e' & H1 & H2)]; [exists e|exists e'].
        * split; [|done]. apply elem_of_app. right. by left.
        * split; [|done]. apply elem_of_app. by left.
      + intros (e' & He & Hc). apply elem_of_app in He as [He|He]; [right; eauto|].
        apply elem_of_list_singleton in He as ->. by left.
  Qed.
  Lemma new_components_again h old new :
    new_components h (new_components h old new) new = new_components h old new.
  Proof.
    destruct (new_components_spec h old new) as (r & E & Hs & Hm). rewrite E.
    destruct (new_components_spec h (fixed h ++ r) new) as (r' & E' & Hs' & Hm'). rewrite E'.
    f_equal. apply sorted_ext; [done..|]. intros n. rewrite Hm', drop_fixed, Hm. tauto.
  Qed.

  Lemma find_others_success e l l' : find_others e l = (l', true) ->
    exists sl xl, surf_loop e (surf_names l e) (surf_types l e) [] = (sl, true) /\
      ex_loop e (ex_sites l e) [] = (xl, true) /\ l' = find_rest e (set_ex (set_surf l sl) xl).
  Proof.
    unfold find_others. destruct (andb _ _); [done|].
    destruct (surf_loop _ _ _ _) as [sl b]. cbn [fst snd]. destruct b; [|done].
    destruct (ex_loop _ _ _) as [xl b]. cbn [fst snd]. destruct b; [|done].
    destruct (andb _ _); [done|]. intros [= <-]. by exists sl, xl.
  Qed.
  Lemma find_result h e l l' n : find_components one h e l = (l', Some n) ->
    n = length (l_comps l') /\
    exists sl xl s r ph,
      e_probe e (plain_comps (new_components h (l_comps l) (e_comps e))) = Some (s, r, ph) /\
      surf_loop e (surf_names l e) (surf_types l e) [] = (sl, true) /\
      ex_loop e (ex_sites l e) [] = (xl, true) /\
      l_surf l' = sl /\ l_ex l' = xl /\ l_species l' = s /\ l_si l' = l_si l ++ ph /\
      l_eq l' = inss (e_eq e) (inss (l_eq l) []) /\ l_gas l' = inss (e_gas e) (inss (l_gas l) []) /\
      l_kin l' = inss (e_kin e) (inss (l_kin l) []) /\ l_ss l' = find_ss (l_ss l) (e_ss e).
  Proof.
    unfold find_components. unfold find_species, find_comps at 1.
    destruct (e_probe e _) as [[[s r] ph]|] eqn:Ep; cbn [snd fst]; [|done].
    destruct (e_unprobe e); [|done].
    match goal with |- context [find_others e ?x] => set (l1 := x) end.
    destruct (find_others e l1) as [l2 b] eqn:Eo. cbn [fst snd].
    destruct b; [|done]. intros [= <- <-].
    apply find_others_success in Eo as (sl & xl & E1 & E2 & ->). split; [done|].
    exists sl, xl, s, r, ph. split_and!; done.
  Qed.

  Lemma surf_loop_elem e names types acc sl : surf_loop e names types acc = (sl, true) ->
    forall s t n, (s, t, n) ∈ sl <-> (s, t, n) ∈ acc \/
      (t ∈ types /\ n = default "" (nd_find t names) /\ exists sp, e_surf_species e t = Some sp /\ s ∈ sp).
  Proof.
    revert acc. induction types as [|u types IH]; intros acc H s t n; simpl in H.
    - injection H as <-. rewrite elem_of_nil. tauto.
    - destruct (e_surf_species e u) as [sp|] eqn:Eu; [|done]. destruct (e_surf_drop e u); [|done].
      rewrite (IH _ H). rewrite elem_of_app, elem_of_list_fmap, elem_of_cons.
      split.
      + intros [[Ha|(s' & [= -> -> ->] & Hs)]|(H1 & H2 & H3)]; [by left| |].
        * right. split_and!; [by left|done|]. by exists sp.
        * right. split_and!; [by right|done|done].
      + intros [Ha|([->|Ht] & -> & (sp' & E & Hs))]; [by left; left| |].
        * left. right. rewrite Eu in E. injection E as <-. by exists s.
        * right. split_and!; [done|done|]. by exists sp'.
  Qed.
  Lemma ex_loop_elem e sites acc xl : ex_loop e sites acc = (xl, true) ->
    forall s t, (s, t) ∈ xl <-> (s, t) ∈ acc \/ (t ∈ sites /\ exists sp, e_ex_species e t = Some sp /\ s ∈ sp).
  Proof.
    revert acc. induction sites as [|u sites IH]; intros acc H s t; simpl in H.
    - injection H as <-. rewrite elem_of_nil. tauto.
    - destruct (e_ex_species e u) as [sp|] eqn:Eu; [|done]. destruct (e_ex_drop e u); [|done].
      rewrite (IH _ H). rewrite elem_of_app, elem_of_list_fmap, elem_of_cons.
      split.
      + intros [[Ha|(s' & [= -> ->] & Hs)]|(H1 & H3)]; [by left| |].
        * right. split; [by left|]. by exists sp.
        * right. split; [by right|done].
      + intros [Ha|([->|Ht] & (sp' & E & Hs))]; [by left; left| |].
        * left. right. rewrite Eu in E. injection E as <-. by exists s.
        * right. split; [done|]. by exists sp'.
  Qed.
End find.

(** ** Names by key *)
Lemma find_set {V} k (x : V) l n : ordered l ->
  nd_find n (nd_set k x l) = if decide (n = k) then Some x else nd_find n l.
Proof.
  intros Ho. assert (Ho' : ordered (nd_set k x l)) by by apply nd_set_ordered.
  case_decide as Hd.
  - subst. apply nd_find_some; [done|]. apply nd_set_elem; [done|]. by left.
  - destruct (nd_find n l) as [y|] eqn:E.
    + apply nd_find_some; [done|]. apply nd_set_elem; [done|]. right. split; [done|].
      by apply nd_find_some.
    + apply nd_find_none; [done|]. intros v Hv. apply nd_set_elem in Hv; [|done].
      destruct Hv as [[? _]|[_ Hv]]; [done|]. by apply (proj1 (nd_find_none _ _ Ho) E v).
Qed.
Lemma fold_set_ordered {A} (f : A -> string * string) (xs : list A) (m : nmap string) :
  ordered m -> ordered (fold_left (fun m x => nd_set (f x).1 (f x).2 m) xs m).
Proof. revert m. induction xs as [|x xs IH]; intros m H; simpl; [done|]. by apply IH, nd_set_ordered. Qed.
Lemma fold_set_find {A} (f : A -> string * string) (xs : list A) (m : nmap string) k : ordered m ->
  nd_find k (fold_left (fun m x => nd_set (f x).1 (f x).2 m) xs m) =
  fold_left (fun acc p => if decide (p.1 = k) then Some p.2 else acc) (map f xs) (nd_find k m).
Proof.
  revert m. induction xs as [|x xs IH]; intros m H; simpl; [done|].
  rewrite IH by by apply nd_set_ordered. f_equal. rewrite find_set by done.
  repeat case_decide; congruence.
Qed.
Lemma surf_names_last {D SP} (l : lists D SP) (e : engine D SP) t :
  nd_find t (surf_names l e) = last_for t (map (fun x => (x.1.2, x.2)) (l_surf l) ++ e_surf e).
Proof.
  unfold surf_names, last_for. rewrite fold_left_app.
  rewrite (fold_set_find (fun p : string * string => p)).
  - rewrite map_id. f_equal. rewrite (fold_set_find (fun x : string * string * string => (x.1.2, x.2))); [done|].
    constructor.
  - apply (fold_set_ordered (fun x : string * string * string => (x.1.2, x.2))). constructor.
Qed.

(** ** Solid-solution names *)
Lemma ss_new_fresh new known m :
  sorted known -> ordered m -> NoDup (map fst new) -> (forall c, c ∈ map fst new -> c ∉ known) ->
  let r := ss_new (map fst new) (map snd new) known m in
  sorted r.1 /\ (forall c, c ∈ r.1 <-> c ∈ map fst new \/ c ∈ known) /\
  forall c v, nd_find c r.2 = Some v <-> (c, v) ∈ new \/ (c ∉ map fst new /\ nd_find c m = Some v).
Proof.
  revert known m. induction new as [|[d n] new IH]; intros known m Hs Ho Hn Hk; simpl.
  { split; [done|]. split; intros c; [rewrite elem_of_nil; tauto|]. intros v. rewrite !elem_of_nil.
    split; [intros H; right; split; [by intros ?|done]|]. intros [[]|[_ H]]; done. }
  simpl in Hn, Hk.
  assert (Ed : existsb (String.eqb d) known = false).
  { destruct (existsb (String.eqb d) known) eqn:E; [|done]. apply existsb_eqb in E. destruct (Hk d); [by left|done]. }
  rewrite Ed. apply NoDup_cons in Hn as [Hd Hn].
  destruct (IH (ins d known) (nd_set d n m)) as (I1 & I2 & I3);
    [by apply sorted_ins|by apply nd_set_ordered|done| |].
  { intros c Hc [->|H]%elem_ins; [done|]. apply (Hk c); [by right|done]. }
  cbn [default] in *. split; [exact I1|]. split.
  { intros c. rewrite I2, elem_ins, elem_of_cons. tauto. }
  intros c v. rewrite I3. rewrite find_set by done. rewrite !elem_of_cons.
  assert (X : forall w, (c, w) ∈ new -> c ∈ map fst new).
  { intros w Hw. apply (elem_of_list_fmap_1 fst) in Hw. done. }
  case_decide as Hc.
  - subst d. split.
    + intros [H|[_ [= ->]]]; [by left; right|by left; left].
    + intros [[[= ->]|H]|[H _]]; [by right|by left|]. destruct H. by left.
  - split.
    + intros [H|[H1 H2]]; [by left; right|]. right. split; [|done]. by intros [?|?].
    + intros [[[= -> _]|H]|[H1 H2]]; [done|by left|]. right. split; [|done]. intros H. apply H1. by right.
Qed.
Lemma find_ss_fresh old new :
  NoDup (map fst old) -> NoDup (map fst new) -> (forall c, c ∈ map fst new -> c ∉ map fst old) ->
  sorted (map fst (find_ss old new)) /\ forall c v, (c, v) ∈ find_ss old new <-> (c, v) ∈ old \/ (c, v) ∈ new.
Proof.
  intros N1 N2 Hd. unfold find_ss.
  set (m := fold_left (fun m p => nd_set p.1 p.2 m) old []).
  assert (Om : ordered m) by (apply (fold_set_ordered (fun p : string * string => p)); constructor).
  assert (Hm : forall c v, nd_find c m = Some v <-> (c, v) ∈ old).
  { intros c v. unfold m. rewrite (fold_set_find (fun p : string * string => p)) by constructor.
    rewrite map_id. cbn [nd_find]. clear m Om Hd.
    assert (G : forall acc, (forall w, acc = Some w -> c ∉ map fst old) ->
      fold_left (fun acc p => if decide (p.1 = c) then Some p.2 else acc) old acc = Some v <->
      (c, v) ∈ old \/ acc = Some v).
    { induction old as [|[d n] old IH]; intros acc Ha; simpl; [rewrite elem_of_nil; tauto|].
      simpl in N1, Ha. apply NoDup_cons in N1 as [Nd N1].
      assert (X : forall w, (c, w) ∈ old -> c ∈ map fst old).
      { intros w Hw. apply (elem_of_list_fmap_1 fst) in Hw. done. }
      case_decide as Hc.
      - subst d. rewrite IH; [|done|by intros w _]. rewrite elem_of_cons. split.
        + intros [H|[= ->]]; [by left; right|by left; left].
        + intros [[[= ->]|H]|H]; [by right|by left|]. destruct (Ha v H). by left.
      - rewrite IH; [|done|]; [|intros w Hw H; apply (Ha w Hw); by right]. rewrite elem_of_cons. split.
        + intros [H|H]; [by left; right|by right].
        + intros [[[= -> _]|H]|H]; [done|by left|by right]. }
    rewrite G by done. split; [by intros [H|H]|by left]. }
  destruct (ss_new_fresh new (inss (map fst old) []) m) as (I1 & I2 & I3);
    [apply sorted_inss, sorted_nil|done|done| |].
  { intros c Hc. rewrite elem_inss, elem_of_nil. intros [H|[]]. by apply (Hd c). }
  set (r := ss_new _ _ _ _) in *. clearbody r. rewrite map_map. simpl. rewrite map_id. split; [done|].
  intros c v. rewrite elem_of_list_fmap.
  assert (X : forall l w, (c, w) ∈ l -> c ∈ map (@fst string string) l).
  { intros l w Hw. apply (elem_of_list_fmap_1 fst) in Hw. done. }
  assert (Y : forall (l : list (string * string)), c ∈ map fst l -> exists w, (c, w) ∈ l).
  { intros l Hl. apply elem_of_list_fmap in Hl as ([c' w] & -> & Hw). by exists w. }
  split.
  - intros (c' & [= -> ->] & Hc). rewrite I2, elem_inss, elem_of_nil in Hc.
    destruct Hc as [Hc|[Hc|[]]].
    + destruct (Y _ Hc) as [w Hw]. right. assert (E : nd_find c' r.2 = Some w) by (apply I3; by left).
      by rewrite E.
    + destruct (Y _ Hc) as [w Hw]. left.
      assert (E : nd_find c' r.2 = Some w).
      { apply I3. right. split; [|by apply Hm]. intros H. by apply (Hd c'). }
      by rewrite E.
  - intros H.
    assert (E : nd_find c r.2 = Some v).
    { apply I3. destruct H as [H|H]; [|by left]. right. split; [|by apply Hm].
      intros H'. apply (Hd c H'). by eapply X. }
    exists c. rewrite E. split; [done|]. rewrite I2, elem_inss.
    destruct H as [H|H]; apply X in H; tauto.
Qed.

(** ** Which runs a call makes *)

Lemma surf_loop_ok {D SP} (e : engine D SP) names ts acc :
  (surf_loop e names ts acc).2 = true <->
  forall t, t ∈ ts -> e_surf_species e t <> None /\ e_surf_drop e t = true.
Proof.
  revert acc. induction ts as [|t ts IH]; intros acc; simpl.
  - split; [intros _ t H; by apply elem_of_nil in H|done].
  - destruct (e_surf_species e t) as [sp|] eqn:E; simpl.
    + destruct (e_surf_drop e t) eqn:Ed.
      * rewrite IH. split.
        -- intros H u Hu. apply elem_of_cons in Hu as [-> | Hu]; [by rewrite E, Ed|by apply H].
        -- intros H u Hu. apply H. by right.
      * simpl. split; [done|]. intros H. destruct (H t) as [_ H2]; [by left|]. congruence.
    + split; [done|]. intros H. destruct (H t) as [H1 _]; [by left|]. congruence.
Qed.
Lemma ex_loop_ok {D SP} (e : engine D SP) ts acc :
  (ex_loop e ts acc).2 = true <->
  forall t, t ∈ ts -> e_ex_species e t <> None /\ e_ex_drop e t = true.
Proof.
  revert acc. induction ts as [|t ts IH]; intros acc; simpl.
  - split; [intros _ t H; by apply elem_of_nil in H|done].
  - destruct (e_ex_species e t) as [sp|] eqn:E; simpl.
    + destruct (e_ex_drop e t) eqn:Ed.
      * rewrite IH. split.
        -- intros H u Hu. apply elem_of_cons in Hu as [-> | Hu]; [by rewrite E, Ed|by apply H].
        -- intros H u Hu. apply H. by right.
      * simpl. split; [done|]. intros H. destruct (H t) as [_ H2]; [by left|]. congruence.
    + split; [done|]. intros H. destruct (H t) as [H1 _]; [by left|]. congruence.
Qed.
