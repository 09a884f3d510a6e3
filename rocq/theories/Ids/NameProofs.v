(** An id names one instance for the whole history. *)
From Coq Require Import ZArith Lia.
From stdpp Require Import prelude gmap.
From Verif.Base Require Import Result.
From Verif.Ids Require Import Model Spec.
Local Open Scope Z_scope.

(** Which instance each id was given to, before position [p] *)
Record given (g : N -> option key) (p : nat) (t : table) : Prop := {
  g_made : forall a k, g a = Some k -> (a < t_made t)%N;
  g_inj : forall a b k, g a = Some k -> g b = Some k -> a = b;
  g_worker : forall a m i, t_own t !! a = Some (Worker m i) -> g a = Some (Work m (Z.of_nat i));
  g_pos : forall a q, g a = Some (Made q) -> (q < p)%nat;
  g_mods : forall a m i, g a = Some (Work m i) -> (m < t_mods t)%N }.
Definition grows (g g' : N -> option key) : Prop := forall a k, g a = Some k -> g' a = Some k.
Definition answers (g : N -> option key) (p : nat) (o : op) (x : out) : Prop :=
  forall id, x = OId id ->
    (o = ICreate \/ o = PCreate -> 0 <= id /\ g (Z.to_N id) = Some (Made p)) /\
    (forall m i, o = MId m i -> 0 <= id -> g (Z.to_N id) = Some (Work m i)).

Lemma given0 : given (fun _ => None) 0 table0.
Proof. by split. Qed.

(** Steps that make nothing *)
Lemma given_less g p t own sz : given g p t ->
  (forall a m i, own !! a = Some (Worker m i) -> t_own t !! a = Some (Worker m i)) ->
  given g (S p) (Table (t_made t) own (t_mods t) sz).
Proof.
  intros [H1 H2 H3 H4 H5] L. split; cbn; try done.
  - intros a m i E. apply H3, L, E.
  - intros a q E. apply H4 in E. lia.
Qed.
Lemma given_same g p t : given g p t -> given g (S p) t.
Proof.
  intros [H1 H2 H3 H4 H5]. split; try done. intros a q E. apply H4 in E. lia.
Qed.
Lemma given_one g p t o : given g p t -> (forall m i, o <> Worker m i) ->
  let g' a := if decide (a = t_made t) then Some (Made p) else g a in
  grows g g' /\ given g' (S p) (Table (t_made t + 1) (<[t_made t := o]> (t_own t)) (t_mods t) (t_size t)).
Proof.
  intros [H1 H2 H3 H4 H5] N g'. unfold g'. split.
  { intros a k E. rewrite decide_False; [done|]. intros ->. apply H1 in E. lia. }
  split; cbn.
  - intros a k. destruct (decide _) as [->|]; [lia|]. intros E. apply H1 in E. lia.
  - intros a b k. destruct (decide (a = _)) as [->|], (decide (b = _)) as [->|]; [done|..].
    + intros [= <-] E. apply H4 in E. lia.
    + intros E [= <-]. apply H4 in E. lia.
    + apply H2.
  - intros a m i. destruct (decide (a = _)) as [->|].
    + rewrite lookup_insert. intros [= ->]. by destruct (N m i).
    + rewrite lookup_insert_ne by done. apply H3.
  - intros a q. destruct (decide (a = _)) as [->|]; [intros [= ->]; lia|]. intros E. apply H4 in E. lia.
  - intros a m i. destruct (decide (a = _)) as [->|]; [done|]. apply H5.
Qed.
Lemma step_given g p t o t' x : given g p t -> does t o t' x ->
  exists g', grows g g' /\ given g' (S p) t' /\ answers g' p o x.
Proof.
  intros G D. pose proof G as [H1 H2 H3 H4 H5].
  assert (forall o x, (o <> ICreate) -> (o <> PCreate) -> (forall m i, o <> MId m i) -> answers g p o x) as Quiet.
  { intros o' x' N1 N2 N3 id _. split; [by intros [?|?]|]. intros m i E. by destruct (N3 m i). }
  destruct D as [| |id o Ho|id No|id o Ho K|id No|id o Ho|id No|id o Ho K|id No| |nxyz threads cores own n Ow
    |nxyz threads cores own n Ow|m n own Sm Ow|m Sm|m i id Pi Ho|m i No].
  - destruct (given_one g p t User G) as [Gr G']; [done|]. eexists. split; [exact Gr|]. split; [exact G'|].
    intros id [= <-]. split; [|done]. intros _. split; [lia|]. rewrite N2Z.id. by rewrite decide_True.
  - destruct (given_one g p t UserPhast G) as [Gr G']; [done|]. eexists. split; [exact Gr|]. split; [exact G'|].
    intros id [= <-]. split; [|done]. intros _. split; [lia|]. rewrite N2Z.id. by rewrite decide_True.
  - exists g. split; [by intros ?|]. split; [|by apply Quiet]. apply given_less; [done|].
    intros a m i E. by apply lookup_delete_Some in E as [_ ?].
  - exists g. split; [by intros ?|]. split; [by apply given_same|by apply Quiet].
  - exists g. split; [by intros ?|]. split; [|by apply Quiet]. apply given_less; [done|].
    intros a m i E. by apply lookup_delete_Some in E as [_ ?].
  - exists g. split; [by intros ?|]. split; [by apply given_same|by apply Quiet].
  - exists g. split; [by intros ?|]. split; [by apply given_same|by apply Quiet].
  - exists g. split; [by intros ?|]. split; [by apply given_same|by apply Quiet].
  - exists g. split; [by intros ?|]. split; [by apply given_same|by apply Quiet].
  - exists g. split; [by intros ?|]. split; [by apply given_same|by apply Quiet].
  - exists g. split; [by intros ?|]. split; [|by apply Quiet]. apply given_less; [done|].
    intros a m i E. by apply map_filter_lookup_Some in E as [? _].
  - exists (fun a => if decide (t_made t <= a < t_made t + n)%N then Some (Work (t_mods t) (Z.of_N (a - t_made t))) else g a).
    split; [|split].
    + intros a k E. rewrite decide_False; [done|]. apply H1 in E. lia.
    + clearbody n. split; cbn.
      * intros a k. destruct (decide _); [lia|]. intros E. apply H1 in E. lia.
      * intros a b k. destruct (decide _) as [ra|ra], (decide _) as [rb|rb].
        { intros [= <-] [= E]. lia. }
        { intros [= <-] E. apply H5 in E. lia. }
        { intros E [= <-]. apply H5 in E. lia. }
        { apply H2. }
      * intros a m i. rewrite Ow. destruct (decide _); [|apply H3]. intros [= <- <-]. do 2 f_equal. lia.
      * intros a q. destruct (decide _); [done|]. intros E. apply H4 in E. lia.
      * intros a m i. destruct (decide _); [intros [= <- _]; lia|]. intros E. apply H5 in E. lia.
    + intros id _. split; [by intros [?|?]|done].
  - exists g. split; [by intros ?|]. split; [|by apply Quiet]. clearbody n. split; cbn; try done.
    + intros a k E. apply H1 in E. lia.
    + intros a m i. rewrite Ow. destruct (decide _); [done|apply H3].
    + intros a q E. apply H4 in E. lia.
    + intros a m i E. apply H5 in E. lia.
  - exists g. split; [by intros ?|]. split; [|by apply Quiet]. apply given_less; [done|].
    intros a m' i. rewrite Ow. destruct (t_own t !! a) as [[]|]; try done. by destruct (decide _).
  - exists g. split; [by intros ?|]. split; [by apply given_same|by apply Quiet].
  - exists g. split; [by intros ?|]. split; [by apply given_same|].
    intros id' [= <-]. split; [by intros [?|?]|]. intros m' i' [= <- <-] _.
    destruct Ho as [_ E]. apply H3 in E. rewrite E. do 2 f_equal. lia.
  - exists g. split; [by intros ?|]. split; [by apply given_same|].
    intros id' [= <-]. split; [by intros [?|?]|]. intros m' i' _ ?. lia.
Qed.
Lemma history_given tr : forall g p t t', given g p t -> history t tr t' ->
  exists g', grows g g' /\ (forall a b k, g' a = Some k -> g' b = Some k -> a = b) /\
    forall q o x, tr !! q = Some (o, x) -> answers g' (p + q) o x.
Proof.
  induction tr as [|[o x] tr IH]; intros g p t t' G H; inversion H; subst.
  - exists g. split; [by intros ?|]. split; [apply (g_inj _ _ _ G)|done].
  - destruct (step_given _ _ _ _ _ _ G ltac:(eassumption)) as (g1 & Gr1 & G1 & An1).
    destruct (IH _ _ _ _ G1 ltac:(eassumption)) as (g2 & Gr2 & Inj & An2).
    exists g2. split; [intros a k E; by apply Gr2, Gr1|]. split; [done|].
    intros [|q] o' x' E; cbn in E.
    + injection E as <- <-. rewrite Nat.add_0_r. intros id Ex. destruct (An1 id Ex) as [P Q]. split.
      * intros Ho. destruct (P Ho) as [? Eg]. split; [done|]. by apply Gr2.
      * intros m i Ho Pi. by apply Gr2, (Q m i).
    + rewrite Nat.add_succ_r. by apply (An2 q).
Qed.
Lemma named_given tr t : history table0 tr t ->
  exists g : N -> option key, (forall a b k, g a = Some k -> g b = Some k -> a = b) /\
    forall k id, named tr k id -> 0 <= id /\ g (Z.to_N id) = Some k.
Proof.
  intros H. destruct (history_given _ _ _ _ _ given0 H) as (g & _ & Inj & An). exists g. split; [done|].
  intros k id N. destruct N as [p id E|p id E|p m i id E P].
  - destruct (An _ _ _ E id eq_refl) as [A _]. apply A. by left.
  - destruct (An _ _ _ E id eq_refl) as [A _]. apply A. by right.
  - destruct (An _ _ _ E id eq_refl) as [_ A]. split; [done|]. by apply A.
Qed.
