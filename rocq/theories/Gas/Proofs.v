(** Lemmas about gas phases. *)
From Coq Require Import String QArith Qcanon.
From stdpp Require Import prelude strings gmap.
From Verif.Base Require Import Result.
From Verif.Solution Require Import Model Proofs.
From Verif.Conc Require Import Model Spec Proofs.
From Verif.Reactant Require Import Model.
From Verif.Gas Require Import Model Spec.
Local Open Scope Qc_scope.

Lemma nocase a b : same_nocase a b = true <-> lowered a = lowered b.
Proof. apply String.eqb_eq. Qed.
Lemma nocase_false a b : same_nocase a b = false <-> lowered a <> lowered b.
Proof. apply String.eqb_neq. Qed.
Lemma nonneg_true x : nonneg x = true <-> 0 <= x.
Proof. unfold nonneg. rewrite negb_true_iff. apply Qc_ltb_false. Qed.
Lemma nonneg_false x : nonneg x = false <-> x < 0.
Proof. unfold nonneg. rewrite negb_false_iff. apply Qc_ltb_true. Qed.

Lemma find_comp_some n l c : find_comp n l = Some c -> c ∈ l /\ lowered (gc_name c) = lowered n.
Proof.
  induction l as [|d l IH]; simpl; [done|]. destruct (same_nocase (gc_name d) n) eqn:E.
  - intros [= ->]. apply nocase in E. split; [left|done].
  - intros H. apply IH in H as [? ?]. split; [by right|done].
Qed.
Lemma find_comp_none n l : find_comp n l = None -> forall c, c ∈ l -> lowered (gc_name c) <> lowered n.
Proof.
  induction l as [|d l IH]; simpl; [by intros _ c ?%elem_of_nil|]. destruct (same_nocase (gc_name d) n) eqn:E; [done|].
  intros H c [->|Hc]%elem_of_cons; [by apply nocase_false|by apply IH].
Qed.
Lemma find_comp_eq n m l : lowered n = lowered m -> find_comp n l = find_comp m l.
Proof. intros E. induction l as [|d l IH]; simpl; [done|]. unfold same_nocase. by rewrite E, IH. Qed.

Definition comps_distinct (l : list gcomp) : Prop := distinct (map gc_name l).
Lemma comps_distinct_cons c l : comps_distinct (c :: l) <->
  (forall d, d ∈ l -> lowered (gc_name d) <> lowered (gc_name c)) /\ comps_distinct l.
Proof.
  unfold comps_distinct, distinct. simpl. rewrite NoDup_cons. split; intros [H1 H2]; (split; [|done]).
  - intros d Hd E. apply H1. apply elem_of_list_fmap. exists (gc_name d). split; [done|].
    apply elem_of_list_fmap. by exists d.
  - intros H. apply elem_of_list_fmap in H as (n & E & Hn). apply elem_of_list_fmap in Hn as (d & -> & Hd).
    by apply (H1 d).
Qed.
Lemma find_comp_in l c : comps_distinct l -> c ∈ l -> find_comp (gc_name c) l = Some c.
Proof.
  induction l as [|d l IH]; intros Hd Hc; [by apply elem_of_nil in Hc|]. apply comps_distinct_cons in Hd as [H1 H2].
  simpl. apply elem_of_cons in Hc as [->|Hc].
  - by rewrite (proj2 (nocase _ _)).
  - rewrite (proj2 (nocase_false _ _)); [by apply IH|]. intros E. by apply (H1 c Hc).
Qed.

(** ** One component *)
Lemma find_set n x l m :
  find_comp m (set_comp n x l) =
  if decide (lowered n = lowered m)
  then Some (match find_comp n l with Some c => with_moles x c | None => new_comp n x end)
  else find_comp m l.
Proof.
  induction l as [|d l IH]; simpl.
  - case_decide as E; [by rewrite (proj2 (nocase n m))|by rewrite (proj2 (nocase_false n m))].
  - destruct (same_nocase (gc_name d) n) eqn:En; simpl.
    + apply nocase in En. case_decide as E.
      * rewrite (proj2 (nocase (gc_name d) m)); [done|congruence].
      * rewrite (proj2 (nocase_false (gc_name d) m)); [done|congruence].
    + apply nocase_false in En. rewrite IH. case_decide as E; [|done].
      rewrite (proj2 (nocase_false (gc_name d) m)); [done|congruence].
Qed.
Lemma find_delete n l m : comps_distinct l ->
  find_comp m (delete_comp n l) = if decide (lowered n = lowered m) then None else find_comp m l.
Proof.
  induction l as [|d l IH]; intros Hd; simpl; [by case_decide|]. apply comps_distinct_cons in Hd as [H1 H2].
  destruct (same_nocase (gc_name d) n) eqn:En; simpl.
  - apply nocase in En. case_decide as E.
    + destruct (find_comp m l) as [c|] eqn:Ec; [|done]. apply find_comp_some in Ec as [Hc Ec].
      exfalso. apply (H1 c Hc). congruence.
    + rewrite (proj2 (nocase_false (gc_name d) m)); [done|congruence].
  - apply nocase_false in En. rewrite IH by done. case_decide as E; [|done].
    rewrite (proj2 (nocase_false (gc_name d) m)); [done|congruence].
Qed.
Lemma set_comp_names n x l c : c ∈ set_comp n x l -> (exists d, d ∈ l /\ gc_name d = gc_name c) \/ gc_name c = n.
Proof.
  induction l as [|d l IH]; simpl.
  - intros ->%elem_of_list_singleton. by right.
  - destruct (same_nocase (gc_name d) n); intros [->|H]%elem_of_cons.
    + left. exists d. split; [left|done].
    + left. exists c. split; [by right|done].
    + left. exists d. split; [left|done].
    + apply IH in H as [(e & He & E)|?]; [|by right]. left. exists e. split; [by right|done].
Qed.
Lemma set_comp_distinct n x l : comps_distinct l -> comps_distinct (set_comp n x l).
Proof.
  induction l as [|d l IH]; intros Hd; simpl.
  - apply comps_distinct_cons. split; [by intros ? ?%elem_of_nil|constructor].
  - apply comps_distinct_cons in Hd as [H1 H2]. destruct (same_nocase (gc_name d) n) eqn:E.
    + apply comps_distinct_cons. split; [done|done].
    + apply comps_distinct_cons. split; [|by apply IH]. intros c Hc.
      apply set_comp_names in Hc as [(e & He & <-)|Hc]; [by apply H1|]. subst n. apply nocase_false in E. congruence.
Qed.
Lemma delete_comp_sub n l c : c ∈ delete_comp n l -> c ∈ l.
Proof.
  induction l as [|d l IH]; simpl; [done|]. destruct (same_nocase (gc_name d) n); [by right|].
  intros [->|H]%elem_of_cons; [left|right; by apply IH].
Qed.
Lemma delete_comp_distinct n l : comps_distinct l -> comps_distinct (delete_comp n l).
Proof.
  induction l as [|d l IH]; intros Hd; simpl; [done|]. apply comps_distinct_cons in Hd as [H1 H2].
  destruct (same_nocase (gc_name d) n); [done|]. apply comps_distinct_cons. split; [|by apply IH].
  intros c Hc. apply H1. by eapply delete_comp_sub.
Qed.

(** ** All components of a cell *)
Definition new_value (n : string) (x : Qc) (o : option gcomp) : option gcomp :=
  if nonneg x then Some (match o with Some c => with_moles x c | None => new_comp n x end) else None.

Lemma set_comps_other names row l m : comps_distinct l -> (forall n, n ∈ names -> lowered n <> lowered m) ->
  find_comp m (set_comps names row l) = find_comp m l.
Proof.
  revert row l. induction names as [|n names IH]; intros row l Hl Hno; [done|]. destruct row as [|x row]; [done|].
  cbn [set_comps]. assert (Hn : lowered n <> lowered m) by (apply Hno; left).
  destruct (nonneg x); rewrite IH.
  - rewrite find_set. by rewrite decide_False.
  - by apply set_comp_distinct.
  - intros k Hk. apply Hno. by right.
  - rewrite find_delete by done. by rewrite decide_False.
  - by apply delete_comp_distinct.
  - intros k Hk. apply Hno. by right.
Qed.
Lemma distinct_cons n names : distinct (n :: names) <-> (forall m, m ∈ names -> lowered m <> lowered n) /\ distinct names.
Proof.
  unfold distinct. simpl. rewrite NoDup_cons. split; intros [H1 H2]; (split; [|done]).
  - intros m Hm E. apply H1. apply elem_of_list_fmap. by exists m.
  - intros H. apply elem_of_list_fmap in H as (m & E & Hm). by apply (H1 m).
Qed.
Lemma set_comps_find names row l k n x : comps_distinct l -> distinct names ->
  names !! k = Some n -> row !! k = Some x ->
  find_comp n (set_comps names row l) = new_value n x (find_comp n l).
Proof.
  revert k row l. induction names as [|m names IH]; intros k row l Hl Hd Hk Hx; [done|].
  destruct row as [|y row]; [done|]. apply distinct_cons in Hd as [H1 H2]. cbn [set_comps]. destruct k as [|k].
  - injection Hk as ->. injection Hx as ->. unfold new_value. destruct (nonneg x).
    + rewrite set_comps_other; [|by apply set_comp_distinct|done]. rewrite find_set. by rewrite decide_True.
    + rewrite set_comps_other; [|by apply delete_comp_distinct|done]. rewrite find_delete by done. by rewrite decide_True.
  - simpl in Hk, Hx. assert (Hne : lowered m <> lowered n).
    { intros E. apply (H1 n); [by eapply elem_of_list_lookup_2|done]. }
    destruct (nonneg y).
    + rewrite (IH k row); [|by apply set_comp_distinct|done..]. rewrite find_set. by rewrite decide_False.
    + rewrite (IH k row); [|by apply delete_comp_distinct|done..]. rewrite find_delete by done. by rewrite decide_False.
Qed.
Lemma set_comps_distinct names row l : comps_distinct l -> comps_distinct (set_comps names row l).
Proof.
  revert row l. induction names as [|m names IH]; intros row l Hl; [done|]. destruct row as [|y row]; [done|].
  cbn [set_comps]. apply IH. destruct (nonneg y); [by apply set_comp_distinct|by apply delete_comp_distinct].
Qed.

Lemma set_comp_snoc n x l : (forall c, c ∈ l -> lowered (gc_name c) <> lowered n) -> set_comp n x l = l ++ [new_comp n x].
Proof.
  induction l as [|d l IH]; intros H; simpl; [done|].
  rewrite (proj2 (nocase_false (gc_name d) n)) by (apply H; left). rewrite IH; [done|]. intros c Hc. apply H. by right.
Qed.
Lemma delete_comp_id n l : (forall c, c ∈ l -> lowered (gc_name c) <> lowered n) -> delete_comp n l = l.
Proof.
  induction l as [|d l IH]; intros H; simpl; [done|].
  rewrite (proj2 (nocase_false (gc_name d) n)) by (apply H; left). rewrite IH; [done|]. intros c Hc. apply H. by right.
Qed.
(** A new gas phase gets the components that setting them one by one would give it. *)
Lemma new_comps_set names row l : distinct names ->
  (forall n c, n ∈ names -> c ∈ l -> lowered (gc_name c) <> lowered n) ->
  set_comps names row l = l ++ new_comps names row.
Proof.
  revert row l. induction names as [|m names IH]; intros row l Hd Hno; [by rewrite app_nil_r|].
  destruct row as [|y row]; [by rewrite app_nil_r|]. apply distinct_cons in Hd as [H1 H2]. cbn [set_comps new_comps].
  assert (Hm : forall c, c ∈ l -> lowered (gc_name c) <> lowered m) by (intros c Hc; apply Hno; [left|done]).
  destruct (nonneg y).
  - rewrite set_comp_snoc by done. rewrite IH; [by rewrite <- app_assoc|done|].
    intros n c Hn [Hc| ->%elem_of_list_singleton]%elem_of_app; [apply Hno; [by right|done]|].
    simpl. intros E. by apply (H1 n Hn).
  - rewrite delete_comp_id by done. rewrite IH; [done|done|]. intros n c Hn Hc. apply Hno; [by right|done].
Qed.

(** ** One cell *)
Definition comps_of (g : option gas) : list gcomp := match g with Some g => g_comps g | None => [] end.
Lemma set_cell_comps names row g : distinct names ->
  comps_of (set_cell names row g) = set_comps names row (comps_of g).
Proof.
  intros Hd. destruct g as [g|]; simpl.
  - by destruct (set_comps names row (g_comps g)).
  - rewrite (new_comps_set names row []); [|done|by intros ? ? _ ?%elem_of_nil].
    by destruct (new_comps names row).
Qed.
Lemma holds_find g n c : tidy_gas g -> holds g n c <-> find_comp n (comps_of g) = Some c.
Proof.
  intros Ht. split.
  - intros (g' & -> & Hc & E). simpl in *. rewrite <- (find_comp_eq (gc_name c) n) by done. by apply find_comp_in.
  - intros H. apply find_comp_some in H as [Hc E]. destruct g as [g'|]; [|by apply elem_of_nil in Hc]. by exists g'.
Qed.
Lemma shows_value f g n : shows f g n (match g with Some g => comp_value f n (g_comps g) | None => qz (-1) end).
Proof.
  destruct g as [g|].
  - unfold comp_value. destruct (find_comp n (g_comps g)) as [c|] eqn:E.
    + left. apply find_comp_some in E as [? ?]. exists c. split; [by exists g|done].
    + right. split; [|done]. intros c (g' & [= <-] & Hc & Hn). by apply (find_comp_none n (g_comps g) E c).
  - right. split; [|done]. by intros c (g' & ? & _).
Qed.

(** ** Layout *)
Lemma mapping_back n back j b : mapping_ok n back -> back !! j = Some b -> b <> [] /\ Forall (fun gc => (gc < n)%nat) b.
Proof.
  intros (H1 & H2 & H3) Hb. split.
  - rewrite Forall_forall in H1. apply H1. by eapply elem_of_list_lookup_2.
  - apply Forall_forall. intros gc Hin. rewrite Forall_forall in H2. apply H2.
    apply elem_of_list_join. exists b. split; [done|]. by eapply elem_of_list_lookup_2.
Qed.

Lemma get_gases_spec row n w back m out :
  length out = (n * w)%nat -> Forall (fun gc => (gc < n)%nat) (mjoin back) -> NoDup (mjoin back) ->
  (forall g, length (row g) = w) -> length m = length back ->
  exists out', get_gases row n w back m out = Ret out' /\ length out' = length out /\
    forall k gc, (k < w)%nat -> (gc < n)%nat ->
      (forall j b g, back !! j = Some b -> gc ∈ b -> m !! j = Some g -> out' !! (n * k + gc)%nat = row g !! k) /\
      (gc ∉ mjoin back -> out' !! (n * k + gc)%nat = out !! (n * k + gc)%nat).
Proof.
  revert m out. induction back as [|b back IH]; intros m out Hl Hf Hnd Hr Hm.
  { exists out. split_and!; [by destruct m|done|]. intros k gc _ _. split; [by intros ???|done]. }
  destruct m as [|g m]; [done|]. simpl in Hm. injection Hm as Hm.
  cbn [mjoin list_join] in Hf, Hnd. apply Forall_app in Hf as [Hf1 Hf2]. apply NoDup_app in Hnd as (N1 & N2 & N3).
  cbn [get_gases].
  destruct (scatter_spec n w b (row g) out) as (o1 & E1 & L1 & S1); [done|done|by rewrite Hr|].
  rewrite E1. cbn [obind].
  destruct (IH m o1) as (o2 & E2 & L2 & S2); [by rewrite L1|done..|].
  exists o2. split_and!; [done|by rewrite L2|]. intros k gc Hk Hg. destruct (S2 k gc Hk Hg) as [A B]. split.
  - intros [|j] b' g' Hb Hin Hg'.
    + injection Hb as <-. injection Hg' as <-. rewrite B by by apply N2. rewrite S1 by done.
      by rewrite decide_True by done.
    + by apply (A j b' g').
  - cbn [mjoin list_join]. rewrite not_elem_of_app. intros [H1 H2]. rewrite B by done. rewrite S1 by done.
    by rewrite decide_False by done.
Qed.

Definition read (n w : nat) (t : list Qc) (gc : nat) : list Qc :=
  map (fun k => default 0 (t !! (k * n + gc)%nat)) (seq 0 w).
Lemma gather_ok n w t gc b : (n * w <= length t)%nat -> (gc < n)%nat -> gather n w t (gc :: b) = Ret (read n w t gc).
Proof.
  intros Ht Hgc. unfold gather, vat at 1. cbn. apply omap_list_ret. intros k Hk. apply elem_of_seq in Hk. unfold vat.
  destruct (lookup_lt_is_Some_2 t (k * n + gc)) as [x Hx]; [nia|]. by rewrite Hx.
Qed.
Lemma read_lookup n w t gc k x : (k < w)%nat -> t !! (k * n + gc)%nat = Some x -> read n w t gc !! k = Some x.
Proof. intros Hk Hx. unfold read. rewrite seq_map_lookup by done. by rewrite Hx. Qed.

Lemma set_cells_spec f n w t back m :
  (n * w <= length t)%nat -> Forall (fun b => b <> []) back -> Forall (fun gc => (gc < n)%nat) (mjoin back) ->
  length m = length back ->
  exists m', set_cells f n w t back m = Ret m' /\ length m' = length m /\
    forall j gc b g, back !! j = Some (gc :: b) -> m !! j = Some g -> m' !! j = Some (f (read n w t gc) g).
Proof.
  intros Ht. revert m. induction back as [|b back IH]; intros m Hb Hf Hm.
  { exists m. split_and!; [by destruct m|done|by intros ????]. }
  destruct m as [|g m]; [done|]. simpl in Hm. injection Hm as Hm.
  apply Forall_cons in Hb as [Hne Hb]. cbn [mjoin list_join] in Hf. apply Forall_app in Hf as [Hf1 Hf2].
  destruct b as [|gc b]; [done|]. apply Forall_cons in Hf1 as [Hgc _].
  destruct (IH m Hb Hf2 Hm) as (m' & E & L & H). cbn [set_cells]. rewrite gather_ok by done. cbn [obind]. rewrite E. cbn [obind].
  eexists. split; [reflexivity|]. split; [simpl; by rewrite L|].
  intros [|j] gc' b' g' Hb' Hg'; simpl in *; [by injection Hb' as -> ->; injection Hg' as ->|by eapply H].
Qed.
