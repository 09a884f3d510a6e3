(** C21: what PartitionUZ conserves and what it does not; C52: gas pressure; C53: slow drainage. *)
From Coq Require Import String QArith Qcanon Qround Lia.
From stdpp Require Import prelude strings gmap.
From Verif.Base Require Import Result.
From Verif.Names Require Import Model.
From Verif.Solution Require Import Model Spec.
From Verif.Reactant Require Import Model Spec.
From Verif.Uz Require Import Model Spec Proofs.
Local Open Scope Qc_scope.

Lemma partition_cases i j new w u old o r : old !! j = Some o ->
  partition_uz i j new w u old = Ret r ->
  (Qc_abs (o - new) < tol8 /\ r = (w, u, old)) \/
  (tol8 <= Qc_abs (o - new) /\
   r = ((repartition i o new w u).1, (repartition i o new w u).2, <[j := new]> old)).
Proof.
  intros Ho. unfold partition_uz. rewrite Ho. destruct (Qc_ltb (Qc_abs (o - new)) tol8) eqn:E.
  - apply Qc_ltb_true in E. intros [= <-]. by left.
  - apply Qc_ltb_false in E. destruct (repartition i o new w u) as [w' u'] eqn:F.
    intros [= <-]. right. done.
Qed.

(** ** Conservation in one step *)
Theorem uz_conserves fm gt q i j new w u old o w' u' old' :
  old !! j = Some o ->
  partition_uz i j new w u old = Ret (w', u', old') ->
  named_q q -> consistent fm gt w i -> consistent fm gt u i ->
  (1 <= new -> has (kind_of q) w i) ->
  amount q w' i + amount q u' i = amount q w i + amount q u i /\
  consistent fm gt w' i /\ consistent fm gt u' i /\
  (forall k, k <> i -> amount q w' k = amount q w k /\ amount q u' k = amount q u k).
Proof.
  intros Ho H Hn Hw Hu Hh.
  destruct (partition_cases i j new w u old o _ Ho H) as [[_ E]|[_ E]]; injection E as -> -> ->.
  { done. }
  destruct (repartition_consistent fm gt i o new w u Hw Hu) as [C1 C2].
  split; [|split; [done|split; [done|intros k Hk; by apply repartition_frame]]].
  destruct (shares o new) as [[[s1 s2] z1] z2] eqn:E.
  destruct (has_dec (kind_of q) w i) as [Hp|Hp].
  - destruct (repartition_amount fm gt q i o new w u s1 s2 z1 z2 Hn Hw Hu Hp E) as [-> ->].
    destruct (shares_sum _ _ _ _ _ _ E) as [E1 E2].
    transitivity ((s1 + z1) * amount q w i + (s2 + z2) * amount q u i); [ring|].
    rewrite E1, E2. ring.
  - rewrite (repartition_parts i o new w u s1 s2 z1 z2 E). cbn [fst snd].
    destruct (parts_absent q i s1 s2 z1 z2 w u Hp) as (-> & -> & H3).
    destruct (Qc_leb 1 new) eqn:F; [apply Qc_leb_true in F; by apply Hh in F|].
    by rewrite H3.
Qed.
Print Assumptions uz_conserves.

(** Nothing becomes negative. *)
Theorem uz_nonneg fm gt q i j new w u old o w' u' old' :
  old !! j = Some o ->
  partition_uz i j new w u old = Ret (w', u', old') ->
  named_q q -> consistent fm gt w i -> consistent fm gt u i ->
  0 <= amount q w i -> 0 <= amount q u i ->
  0 <= amount q w' i /\ 0 <= amount q u' i.
Proof.
  intros Ho H Hn Hw Hu Pw Pu.
  destruct (partition_cases i j new w u old o _ Ho H) as [[_ E]|[_ E]]; injection E as -> -> ->.
  { done. }
  destruct (shares o new) as [[[s1 s2] z1] z2] eqn:E.
  destruct (has_dec (kind_of q) w i) as [Hp|Hp].
  - destruct (repartition_amount fm gt q i o new w u s1 s2 z1 z2 Hn Hw Hu Hp E) as [-> ->].
    destruct (shares_range _ _ _ _ _ _ E) as [[? ?] [? ?]].
    split; (apply Solution.Proofs.Qcplus_nonneg; by apply Solution.Proofs.Qcmult_nonneg).
  - rewrite (repartition_parts i o new w u s1 s2 z1 z2 E). cbn [fst snd].
    destruct (parts_absent q i s1 s2 z1 z2 w u Hp) as (-> & _ & H3). split; [done|].
    destruct (Qc_leb 1 new); [rewrite store_remove_amount; done|by rewrite H3].
Qed.
Print Assumptions uz_nonneg.

(** Full and dry cells. *)
Theorem uz_extremes fm gt q i j new w u old o w' u' old' :
  old !! j = Some o ->
  partition_uz i j new w u old = Ret (w', u', old') ->
  named_q q -> consistent fm gt w i -> consistent fm gt u i -> has (kind_of q) w i ->
  tol8 <= Qc_abs (o - new) ->
  (1 <= new -> amount q w' i = amount q w i + amount q u i /\
               (forall k, ~ has k u' i)) /\
  (new <= dry6 -> amount q w' i = 0 /\ amount q u' i = amount q w i + amount q u i).
Proof.
  intros Ho H Hn Hw Hu Hh Ht.
  destruct (partition_cases i j new w u old o _ Ho H) as [[E _]|[_ E]].
  { by destruct (Qclt_not_le _ _ E). }
  injection E as -> -> ->.
  destruct (shares o new) as [[[s1 s2] z1] z2] eqn:E.
  destruct (repartition_amount fm gt q i o new w u s1 s2 z1 z2 Hn Hw Hu Hh E) as [A1 A2].
  rewrite A1. split; intros Hnew.
  - split.
    + destruct (shares_cases o new) as [[_ F]|[(F & _)|[(F & _)|(F & _)]]];
        [|by destruct (Qclt_not_le _ _ F)..].
      rewrite E in F. injection F as -> -> -> ->. ring.
    + rewrite (repartition_parts i o new w u s1 s2 z1 z2 E). cbn [snd].
      rewrite (proj2 (Qc_leb_true 1 new) Hnew).
      intros k. destruct k; cbn; rewrite lookup_delete; by intros [? ?].
  - rewrite A2. destruct (shares_cases o new) as [[F _]|[(_ & _ & F)|[(_ & F & _)|(_ & F & _)]]].
    + exfalso. apply (Qclt_not_le dry6 1); [done|]. by apply Qcle_trans with new.
    + rewrite E in F. injection F as -> -> -> ->. split; ring.
    + by destruct (Qclt_not_le _ _ F).
    + by destruct (Qclt_not_le _ _ F).
Qed.
Print Assumptions uz_extremes.

(** Reactants spread evenly over the cell stay so: the saturated part holds the share of the
    saturation. *)
Definition clamp (x : Qc) : Qc := if Qc_leb 1 x then 1 else x.
Theorem uz_proportional fm gt q i j new w u old o w' u' old' T :
  old !! j = Some o ->
  partition_uz i j new w u old = Ret (w', u', old') ->
  named_q q -> consistent fm gt w i -> consistent fm gt u i -> has (kind_of q) w i ->
  tol8 <= Qc_abs (o - new) -> o <= 1 -> dry6 < new ->
  amount q w i = o * T -> amount q u i = (1 - o) * T ->
  amount q w' i = clamp new * T /\ amount q u' i = (1 - clamp new) * T.
Proof.
  intros Ho H Hn Hw Hu Hh Ht Ho1 Hd Aw Au.
  destruct (partition_cases i j new w u old o _ Ho H) as [[E _]|[_ E]].
  { by destruct (Qclt_not_le _ _ E). }
  injection E as -> -> ->.
  destruct (shares o new) as [[[s1 s2] z1] z2] eqn:E.
  destruct (repartition_amount fm gt q i o new w u s1 s2 z1 z2 Hn Hw Hu Hh E) as [-> ->].
  rewrite Aw, Au. unfold clamp.
  destruct (shares_cases o new) as [[F G]|[(_ & F & _)|[(F & _ & Hlt & G & Hpos)|(F & _ & Hle & G & Hpos)]]].
  - rewrite (proj2 (Qc_leb_true 1 new) F). rewrite E in G. injection G as -> -> -> ->. split; ring.
  - by destruct (Qclt_not_le _ _ Hd).
  - rewrite (proj2 (Qc_leb_false 1 new) F). rewrite E in G. injection G as -> -> -> ->.
    assert (1 - o <> 0) by (intros X; rewrite X in Hpos; by apply (Qclt_not_eq 0 0)).
    split; field; done.
  - rewrite (proj2 (Qc_leb_false 1 new) F). rewrite E in G. injection G as -> -> -> ->.
    assert (o <> 0) by (intros X; rewrite X in Hpos; by apply (Qclt_not_eq 0 0)).
    split; field; done.
Qed.
Print Assumptions uz_proportional.

(** ** All cells, any number of reaction steps *)
Definition all_consistent (fm : string -> string) (gt : Z -> gtype) (st : store) : Prop :=
  forall k, consistent fm (gt k) st k.

Lemma step_consistent fm gt i o new w u : all_consistent fm gt w -> all_consistent fm gt u ->
  all_consistent fm gt (repartition i o new w u).1 /\ all_consistent fm gt (repartition i o new w u).2.
Proof.
  intros Hw Hu. destruct (shares o new) as [[[s1 s2] z1] z2] eqn:E.
  split; intros k; (destruct (decide (k = i)) as [->|Hk];
    [destruct (repartition_consistent fm (gt i) i o new w u (Hw i) (Hu i)); done|]);
    rewrite (repartition_parts i o new w u s1 s2 z1 z2 E); cbn [fst snd];
    destruct (parts_consistent_frame fm (gt k) i s1 s2 z1 z2 w u k Hk) as [F1 F2].
  - by apply F1.
  - destruct (Qc_leb 1 new); [apply remove_consistent|]; by apply F2.
Qed.
Lemma has_frame kd k i o new w u : k <> i -> has kd w k -> has kd (repartition i o new w u).1 k.
Proof.
  intros Hk. destruct (shares o new) as [[[s1 s2] z1] z2] eqn:E.
  rewrite (repartition_parts i o new w u s1 s2 z1 z2 E). cbn [fst].
  destruct kd; cbn [has parts st_ex st_pp st_gas st_ss st_kin st_surf fst snd];
    match goal with |- context [part_one ?f ?m1 ?m2 i ?a ?b] =>
      destruct (part_one_frame f m1 m2 i a b k Hk) as [-> _] end; done.
Qed.

(** What one pass over the cells, or any number of passes, preserves. *)
Record kept (fm : string -> string) (gt : Z -> gtype) (q : quantity) (cells : list Z)
    (w u w' u' : store) : Prop := Kept {
  kept_total : forall k, amount q w' k + amount q u' k = amount q w k + amount q u k;
  kept_has : forall k, k ∈ cells -> has (kind_of q) w' k;
  kept_w : all_consistent fm gt w';
  kept_u : all_consistent fm gt u' }.

Lemma partition_cells_kept fm gt q rep sat all cells w u old w' u' old' :
  named_q q -> cells ⊆ all -> (forall k, k ∈ all -> has (kind_of q) w k) ->
  all_consistent fm gt w -> all_consistent fm gt u ->
  partition_cells rep sat cells w u old = Ret (w', u', old') ->
  kept fm gt q all w u w' u'.
Proof.
  intros Hn. revert w u old. induction cells as [|i cells IH]; intros w u old Hsub Hh Hw Hu; cbn.
  { intros [= <- <- <-]. by constructor. }
  destruct (sat !! rep i) as [x|]; [|done].
  destruct (partition_uz i (rep i) x w u old) as [[[w1 u1] old1]| |] eqn:E; [|done|done].
  cbn [obind fst snd]. intros H.
  destruct (old !! rep i) as [o|] eqn:Ho; [|by unfold partition_uz in E; rewrite Ho in E].
  assert (Hi : has (kind_of q) w i) by (apply Hh, Hsub; by left).
  destruct (uz_conserves fm (gt i) q i (rep i) x w u old o w1 u1 old1 Ho E Hn (Hw i) (Hu i) (fun _ => Hi))
    as (T & _ & _ & F).
  assert (K : all_consistent fm gt w1 /\ all_consistent fm gt u1 /\
              (forall k, k ∈ all -> has (kind_of q) w1 k)).
  { destruct (partition_cases i (rep i) x w u old o _ Ho E) as [[_ G]|[_ G]]; injection G as -> -> ->.
    - done.
    - destruct (step_consistent fm gt i o x w u Hw Hu) as [C1 C2]. split; [done|split; [done|]].
      intros k Hk. destruct (decide (k = i)) as [->|Hne].
      + by apply repartition_has.
      + apply has_frame; [done|by apply Hh]. }
  destruct K as (Hw1 & Hu1 & Hh1).
  destruct (IH w1 u1 old1) as [T' H1 H2 H3]; try done.
  { intros k Hk. apply Hsub. by right. }
  constructor; try done. intros k. rewrite T'.
  destruct (decide (k = i)) as [->|Hne]; [done|]. destruct (F k Hne) as [-> ->]. done.
Qed.

Theorem uz_runs_conserve fm gt q rep cells sats w u old w' u' old' :
  named_q q -> (forall k, k ∈ cells -> has (kind_of q) w k) ->
  all_consistent fm gt w -> all_consistent fm gt u ->
  partition_runs rep cells sats w u old = Ret (w', u', old') ->
  (forall k, amount q w' k + amount q u' k = amount q w k + amount q u k) /\
  (forall k, k ∈ cells -> has (kind_of q) w' k).
Proof.
  intros Hn. revert w u old. induction sats as [|sat sats IH]; intros w u old Hh Hw Hu; cbn.
  { intros [= <- <- <-]. done. }
  unfold partition_run.
  destruct (partition_cells rep sat cells w u old) as [[[w1 u1] old1]| |] eqn:E; [|done|done].
  cbn [obind fst snd]. intros H.
  destruct (partition_cells_kept fm gt q rep sat cells cells w u old w1 u1 old1 Hn) as [T H1 H2 H3]; try done.
  destruct (IH w1 u1 sat) as [T' H1']; try done.
  split; [|done]. intros k. by rewrite T'.
Qed.
Print Assumptions uz_runs_conserve.

(** Over any number of reaction steps without reactions, as long as each change of saturation is
    zero or at least 1e-8 and no cell dries up or exceeds 1, the share in the saturated part is the
    saturation. *)
Definition good_step (o x : Qc) : Prop := dry6 < x /\ x <= 1 /\ (x = o \/ tol8 <= Qc_abs (o - x)).
Fixpoint good_path (j : nat) (o : Qc) (sats : list (list Qc)) : Prop :=
  match sats with
  | [] => True
  | sat :: sats' => match sat !! j with Some x => good_step o x /\ good_path j x sats' | None => False end
  end.
Definition spread (q : quantity) (i : Z) (x T : Qc) (w u : store) : Prop :=
  amount q w i = x * T /\ amount q u i = (1 - x) * T.

Lemma clamp_le x : x <= 1 -> clamp x = x.
Proof.
  intros H. unfold clamp. destruct (Qc_leb 1 x) eqn:E; [|done].
  apply Qc_leb_true in E. by apply Qcle_antisym.
Qed.
Lemma one_spread fm gt q i j x w u old o w' u' old' T :
  named_q q -> consistent fm gt w i -> consistent fm gt u i -> has (kind_of q) w i ->
  old !! j = Some o -> o <= 1 -> good_step o x -> spread q i o T w u ->
  partition_uz i j x w u old = Ret (w', u', old') -> spread q i x T w' u'.
Proof.
  intros Hn Hw Hu Hh Ho Ho1 (Hd & H1 & Hx) [Aw Au] H.
  destruct Hx as [->|Hx].
  - destruct (partition_cases i j o w u old o _ Ho H) as [[_ E]|[E _]].
    + injection E as -> -> ->. done.
    + replace (o - o) with (Q2Qc 0) in E by ring. done.
  - rewrite <- (clamp_le x H1). by eapply (uz_proportional fm gt q i j x w u old o w' u' old' T).
Qed.
Lemma uz_others q i j x w u old o w' u' old' k : old !! j = Some o ->
  partition_uz i j x w u old = Ret (w', u', old') -> k <> i ->
  amount q w' k = amount q w k /\ amount q u' k = amount q u k.
Proof.
  intros Ho H Hk. destruct (partition_cases i j x w u old o _ Ho H) as [[_ E]|[_ E]]; injection E as -> -> ->.
  - done.
  - by apply repartition_frame.
Qed.
Lemma uz_old i j x w u old o w' u' old' l : old !! j = Some o ->
  partition_uz i j x w u old = Ret (w', u', old') -> l <> j -> old' !! l = old !! l.
Proof.
  intros Ho H Hl. destruct (partition_cases i j x w u old o _ Ho H) as [[_ E]|[_ E]]; injection E as -> -> ->.
  - done.
  - by rewrite list_lookup_insert_ne.
Qed.
Lemma cells_spread fm gt q rep sat cells i x o T : named_q q ->
  NoDup cells -> (forall a b, a ∈ cells -> b ∈ cells -> rep a = rep b -> a = b) ->
  sat !! rep i = Some x -> o <= 1 -> good_step o x ->
  forall w u old w' u' old',
  all_consistent fm gt w -> all_consistent fm gt u -> (forall k, k ∈ cells -> has (kind_of q) w k) ->
  partition_cells rep sat cells w u old = Ret (w', u', old') ->
  (i ∉ cells -> amount q w' i = amount q w i /\ amount q u' i = amount q u i) /\
  (i ∈ cells -> old !! rep i = Some o -> spread q i o T w u -> spread q i x T w' u').
Proof.
  intros Hn Hnd. induction Hnd as [|c cells Hc Hnd IH]; intros Hinj Hsat Ho1 Hg w u old w' u' old' Hw Hu Hh.
  { cbn. intros [= <- <- <-]. split; [done|]. by intros ?%elem_of_nil. }
  cbn. destruct (sat !! rep c) as [y|] eqn:Ey; [|done].
  destruct (partition_uz c (rep c) y w u old) as [[[w1 u1] old1]| |] eqn:E; [|done|done].
  cbn [obind fst snd]. intros H.
  destruct (old !! rep c) as [oc|] eqn:Hoc; [|by unfold partition_uz in E; rewrite Hoc in E].
  assert (K : all_consistent fm gt w1 /\ all_consistent fm gt u1 /\
              (forall k, k ∈ cells -> has (kind_of q) w1 k)).
  { destruct (partition_cases c (rep c) y w u old oc _ Hoc E) as [[_ G]|[_ G]]; injection G as -> -> ->.
    - split; [done|split; [done|]]. intros k Hk. apply Hh. by right.
    - destruct (step_consistent fm gt c oc y w u Hw Hu) as [C1 C2]. split; [done|split; [done|]].
      intros k Hk. apply has_frame; [by intros ->|]. apply Hh. by right. }
  destruct K as (Hw1 & Hu1 & Hh1).
  destruct (IH (fun a b Ha Hb => Hinj a b (elem_of_list_further _ _ _ Ha) (elem_of_list_further _ _ _ Hb))
              Hsat Ho1 Hg w1 u1 old1 w' u' old' Hw1 Hu1 Hh1 H) as [I1 I2].
  split.
  - intros Hi. apply not_elem_of_cons in Hi as [Hne Hi]. destruct (I1 Hi) as [-> ->].
    by apply (uz_others q c (rep c) y w u old oc w1 u1 old1 i).
  - intros Hi Ho Hs. destruct (decide (i = c)) as [->|Hne].
    + assert (y = x) as -> by congruence. assert (oc = o) as -> by congruence.
      destruct (I1 Hc) as [E1 E2]. unfold spread. rewrite E1, E2.
      eapply (one_spread fm (gt c) q c (rep c) x w u old o w1 u1 old1 T); try done.
      apply Hh. by left.
    + apply elem_of_cons in Hi as [Hi|Hi]; [done|].
      apply I2; [done| |].
      * rewrite (uz_old c (rep c) y w u old oc w1 u1 old1 (rep i) Hoc E); [done|].
        intros Heq. apply Hne. apply Hinj; [by right|by left|done].
      * destruct (uz_others q c (rep c) y w u old oc w1 u1 old1 i Hoc E Hne) as [E1 E2].
        unfold spread. rewrite E1, E2. done.
Qed.
Theorem uz_runs_proportional fm gt q rep cells i T sats w u old o w' u' old' :
  named_q q -> NoDup cells -> (forall a b, a ∈ cells -> b ∈ cells -> rep a = rep b -> a = b) ->
  i ∈ cells -> (forall k, k ∈ cells -> has (kind_of q) w k) ->
  all_consistent fm gt w -> all_consistent fm gt u ->
  old !! rep i = Some o -> o <= 1 -> good_path (rep i) o sats -> spread q i o T w u ->
  partition_runs rep cells sats w u old = Ret (w', u', old') ->
  exists x, old' !! rep i = Some x /\ spread q i x T w' u'.
Proof.
  intros Hn Hnd Hinj Hi. revert w u old o.
  induction sats as [|sat sats IH]; intros w u old o Hh Hw Hu Ho Ho1 Hg Hs; cbn.
  { intros [= <- <- <-]. by exists o. }
  unfold partition_run.
  destruct (partition_cells rep sat cells w u old) as [[[w1 u1] old1]| |] eqn:E; [|done|done].
  cbn [obind fst snd]. intros H. cbn in Hg.
  destruct (sat !! rep i) as [x|] eqn:Ex; [|done]. destruct Hg as [Hg Hp].
  destruct (cells_spread fm gt q rep sat cells i x o T Hn Hnd Hinj Ex Ho1 Hg w u old w1 u1 old1 Hw Hu Hh E)
    as [_ H1].
  destruct (partition_cells_kept fm gt q rep sat cells cells w u old w1 u1 old1 Hn) as [_ H2 H3 H4]; try done.
  apply (IH w1 u1 sat x); try done.
  - apply Hg.
  - by apply H1.
Qed.
Print Assumptions uz_runs_proportional.

(** ** What is not conserved *)

(** A reactant that is only in the unsaturated part is destroyed when the cell fills up. *)
Definition oxygen (x : Qc) : gas := Gas GP_VOLUME 1 1 0 x (Q2Qc 298) [GCo "O2(g)" x 0 x 0 1 0].
Definition empty_store : store := Store ∅ ∅ ∅ ∅ ∅ ∅.
Definition with_gas (g : gas) : store := Store ∅ ∅ {[0%Z := g]} ∅ ∅ ∅.
Definition one_cell : Z -> nat := fun _ => 0%nat.

Theorem uz_lost_refuted :
  exists u w' u' old', partition_uz 0%Z 0 1 empty_store u [half] = Ret (w', u', old') /\
    amount (QGas "O2(g)") u 0%Z = 1 /\
    amount (QGas "O2(g)") w' 0%Z + amount (QGas "O2(g)") u' 0%Z = 0.
Proof.
  exists (with_gas (oxygen 1)). do 3 eexists. split; [reflexivity|].
  split; apply Qc_is_canon; vm_compute; reflexivity.
Qed.
Print Assumptions uz_lost_refuted.

(** A cell that drains to one half and fills again: the fixed pressure of its gas phase has dropped
    from 1 to 2/3 although nothing reacted and the moles are back. *)
Definition pressure (st : store) (n : Z) : Qc := opt_amount g_pressure (st_gas st !! n).
Definition air : store :=
  with_gas (Gas GP_PRESSURE 1 1 0 1 (Q2Qc 298) [GCo "N2(g)" 1 0 1 1 1 1]).
Theorem uz_pressure_refuted :
  exists w' u' old', partition_runs one_cell [0%Z] [[half]; [1]] air empty_store [1] = Ret (w', u', old') /\
    pressure air 0%Z = 1 /\ pressure w' 0%Z = Q2Qc (2 # 3) /\
    amount (QGas "N2(g)") w' 0%Z = amount (QGas "N2(g)") air 0%Z.
Proof.
  do 3 eexists. split; [reflexivity|].
  repeat split; apply Qc_is_canon; vm_compute; reflexivity.
Qed.
Print Assumptions uz_pressure_refuted.

(** Changes below 1e-8 are skipped but still recorded as done, so a slow drainage moves nothing. *)
Fixpoint creep (o d : Qc) (k : nat) : list (list Qc) :=
  match k with 0%nat => [] | S k' => [o - d] :: creep (o - d) d k' end.
Lemma Qc_abs_step o d : 0 <= d -> Qc_abs (o - (o - d)) = d.
Proof.
  intros H. replace (o - (o - d)) with d by ring. unfold Qc_abs.
  destruct (Qc_ltb d 0) eqn:E; [|done]. apply Qc_ltb_true in E. by destruct (Qclt_not_le _ _ E).
Qed.
Lemma creep_moves_nothing d k : 0 <= d -> d < tol8 -> forall w u o,
  partition_runs one_cell [0%Z] (creep o d k) w u [o] = Ret (w, u, [o - Q2Qc (inject_Z (Z.of_nat k)) * d]).
Proof.
  intros H0 H1. induction k as [|k IH]; intros w u o.
  - cbn. repeat f_equal. change (Q2Qc (inject_Z (Z.of_nat 0))) with (Q2Qc 0). ring.
  - cbn [creep partition_runs partition_run partition_cells obind].
    unfold partition_run, partition_cells, one_cell, partition_uz. cbn [lookup list_lookup obind].
    rewrite Qc_abs_step by done. rewrite (proj2 (Qc_ltb_true d tol8) H1). cbn [obind fst snd].
    fold one_cell. rewrite IH.
    assert (E : Q2Qc (inject_Z (Z.of_nat (S k))) = 1 + Q2Qc (inject_Z (Z.of_nat k))).
    { apply Qc_is_canon. cbn [this Q2Qc Qcplus]. rewrite !Qred_correct.
      rewrite Nat2Z.inj_succ. unfold Z.succ. rewrite inject_Z_plus. ring. }
    rewrite E. generalize (Q2Qc (inject_Z (Z.of_nat k))). intros c.
    by replace (o - d - c * d) with (o - (1 + c) * d) by ring.
Qed.
Theorem uz_creep_refuted w :
  exists sats, sats <> [] /\ last sats = Some [half] /\
    partition_runs one_cell [0%Z] sats w empty_store [1] = Ret (w, empty_store, [half]).
Proof.
  set (N := Z.to_nat 100000000%Z). set (d := Q2Qc (1 # 200000000)).
  assert (H0 : 0 <= d) by done. assert (H1 : d < tol8) by done.
  assert (EN : Q2Qc (inject_Z (Z.of_nat N)) = Q2Qc (100000000 # 1)).
  { unfold N. rewrite Z2Nat.id by lia. done. }
  assert (EH : 1 - Q2Qc (100000000 # 1) * d = half) by (apply Qc_is_canon; vm_compute; reflexivity).
  assert (L : forall k o, last (creep o d (S k)) = Some [o - Q2Qc (inject_Z (Z.of_nat (S k))) * d]).
  { induction k as [|k IH]; intros o.
    - change (Q2Qc (inject_Z (Z.of_nat 1))) with (Q2Qc 1). cbn [creep last].
      by replace (o - d) with (o - 1 * d) by ring.
    - change (last (creep o d (S (S k)))) with (last (creep (o - d) d (S k))).
      rewrite IH.
      assert (E : Q2Qc (inject_Z (Z.of_nat (S (S k)))) = 1 + Q2Qc (inject_Z (Z.of_nat (S k)))).
      { apply Qc_is_canon. cbn [this Q2Qc Qcplus]. rewrite !Qred_correct.
        rewrite (Nat2Z.inj_succ (S k)). unfold Z.succ. rewrite inject_Z_plus. ring. }
      rewrite E. generalize (Q2Qc (inject_Z (Z.of_nat (S k)))). intros c.
      by replace (o - d - c * d) with (o - (1 + c) * d) by ring. }
  assert (EM : exists M, N = S M).
  { exists (pred N). unfold N. rewrite Nat.succ_pred; [done|]. lia. }
  destruct EM as [M EM]. exists (creep 1 d N). split; [|split].
  - rewrite EM. done.
  - rewrite EM, L, <- EM, EN, EH. done.
  - rewrite creep_moves_nothing by done. by rewrite EN, EH.
Qed.
Print Assumptions uz_creep_refuted.

(** A saturation above 1 is taken literally: draining from 2 to 1/2 leaves a quarter. *)
Theorem uz_above_one_refuted :
  exists w' u' old', partition_uz 0%Z 0 half air empty_store [Q2Qc 2] = Ret (w', u', old') /\
    amount (QGas "N2(g)") air 0%Z = 1 /\ amount (QGas "N2(g)") w' 0%Z = Q2Qc (1 # 4).
Proof.
  do 3 eexists. split; [reflexivity|].
  repeat split; apply Qc_is_canon; vm_compute; reflexivity.
Qed.
Print Assumptions uz_above_one_refuted.

(** ** Non-trivial instances *)
Definition qz2 (z : Z) : Qc := Q2Qc (inject_Z z).
Definition clay : store :=
  Store {[0%Z := Exch [ECo "X" [("Ca"%string, qz2 2); ("X"%string, qz2 4)] 0 0 "" 0 ""] true]}
        {[0%Z := Pp [("Calcite"%string, PCo "Calcite" "" 0 0 (qz2 10) 0 (qz2 10))] []]}
        ∅
        {[0%Z := [("CaSrCO3"%string, Ss "CaSrCO3" [SCo "Strontianite" (qz2 3) 0 0 0])]]}
        {[0%Z := Kin [KCo "Pyrite" (qz2 5) (qz2 5) 0] 1]}
        {[0%Z := Surf [UCo "Hfo_w" (qz2 2) [("Zn"%string, 1)] 0 0 "" 0 ""]
                      [UCh "Hfo" (qz2 600) (qz2 90) 0 0 0 0 0 []] 1]}.

Definition no_formula : string -> string := fun _ => ""%string.
Lemma clay_consistent : all_consistent no_formula (fun _ => GP_VOLUME) clay.
Proof.
  intros k. split; [|split]; intros x; cbn; rewrite ?lookup_singleton_Some; [|done|].
  - intros [_ <-] n c. cbn. rewrite elem_of_cons, elem_of_nil. intros [H|[]].
    injection H as -> ->. done.
  - intros [_ <-] n c. cbn. rewrite elem_of_cons, elem_of_nil. intros [H|[]].
    injection H as -> ->. done.
Qed.
Lemma empty_consistent : all_consistent no_formula (fun _ => GP_VOLUME) empty_store.
Proof. intros k. split; [|split]; intros x; cbn; by rewrite lookup_empty. Qed.
Lemma clay_has q : kind_of q <> KGas -> has (kind_of q) clay 0%Z.
Proof. intros H. destruct (kind_of q); try done; cbn; rewrite lookup_singleton; done. Qed.

(** Every solid of [clay] drains by half, drains further and comes back. *)
Example clay_drains :
  (forall q, named_q q -> kind_of q <> KGas -> has (kind_of q) clay 0%Z) /\
  all_consistent no_formula (fun _ => GP_VOLUME) clay /\
  match partition_runs one_cell [0%Z] [[half]; [Q2Qc (1 # 5)]; [Q2Qc (3 # 4)]] clay empty_store [1] with
  | Ret (w', u', _) =>
      map this [amount (QPhase "Calcite") w' 0%Z; amount (QPhase "Calcite") u' 0%Z;
                amount (QExchange "X" "Ca") w' 0%Z; amount (QKinetic "Pyrite") w' 0%Z;
                amount (QSolid "CaSrCO3" "Strontianite") w' 0%Z; amount (QSorbed "Hfo_w" "Zn") w' 0%Z]
      = [15 # 2; 5 # 2; 3 # 2; 15 # 4; 9 # 4; 3 # 4]%Q
  | _ => False
  end.
Proof.
  split; [intros q _; apply clay_has|]. split; [apply clay_consistent|].
  vm_compute. reflexivity.
Qed.
Example clay_proportional :
  match partition_uz 0%Z 0 half clay empty_store [1] with
  | Ret (w', _, _) =>
      map this [amount (QPhase "Calcite") clay 0%Z; amount (QPhase "Calcite") empty_store 0%Z;
                amount (QPhase "Calcite") w' 0%Z; clamp half * qz2 10] = [10; 0; 5; 5]%Q
  | _ => False
  end.
Proof. vm_compute. reflexivity. Qed.
