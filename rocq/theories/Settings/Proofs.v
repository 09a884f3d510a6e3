(** Supporting lemmas for settings. *)
From Coq Require Import ZArith.
From stdpp Require Import prelude.
From Verif.Base Require Import Result.
From Verif.Settings Require Import Model Spec.

Lemma unit_ok_documented k u : unit_ok k u = true <-> u ∈ documented k.
Proof.
  destruct k; cbn [unit_ok documented]; rewrite !elem_of_cons, elem_of_nil, andb_true_iff; lia.
Qed.
Lemma upd_same {K V} `{EqDecision K} (k : K) (v : V) f : upd k v f k = v.
Proof. unfold upd. by rewrite decide_True. Qed.
Lemma upd_other {K V} `{EqDecision K} (k k' : K) (v : V) f : k' <> k -> upd k v f k' = f k'.
Proof. intros. unfold upd. by rewrite decide_False. Qed.

Section settings.
  Context {D : Type}.
  Implicit Types (l : list D) (cs : list (cell D)).

  Lemma push_spec (f : D -> cell D -> cell D) values back cs cs' :
    push f values back cs = Some cs' ->
    length cs' = length cs /\
    forall j c, cs !! j = Some c ->
      exists i b v, back !! j = Some (i :: b) /\ values !! i = Some v /\ cs' !! j = Some (f v c).
  Proof.
    revert back cs'. induction cs as [|c cs IH]; intros back cs' H; simpl in H.
    { injection H as <-. split; [done|]. intros j c Hj. by rewrite lookup_nil in Hj. }
    destruct back as [|b back]; [done|]. destruct b as [|i b]; [done|].
    destruct (values !! i) as [v|] eqn:Hv; [|done].
    destruct (push f values back cs) as [r|] eqn:Hr; [|done]. injection H as <-.
    destruct (IH back r Hr) as [IH1 IH2]. split; [simpl; congruence|].
    intros [|j] c' Hj; simpl in *.
    - injection Hj as <-. by exists i, b, v.
    - by apply IH2.
  Qed.
  Lemma push_total (f : D -> cell D -> cell D) values back cs nxyz :
    mapping_ok nxyz back -> length cs <= length back -> nxyz <= length values ->
    is_Some (push f values back cs).
  Proof.
    intros [H1 _] Hl Hn. revert back H1 Hl. induction cs as [|c cs IH]; intros back H1 Hl; simpl; [by eexists|].
    destruct back as [|b back]; [simpl in Hl; lia|].
    destruct (H1 0 b) as [Hb Hi]; [done|]. destruct b as [|i b]; [done|].
    destruct (lookup_lt_is_Some_2 values i) as [v ->].
    { specialize (Hi i). feed specialize Hi; [by left|lia]. }
    destruct (IH back) as [r ->]; [intros j b' Hj; by apply (H1 (S j))|simpl in Hl; lia|]. by eexists.
  Qed.

  Lemma write_all_spec is (v : D) l l' : write_all is v l = Some l' ->
    length l' = length l /\ (forall i, i ∈ is -> l' !! i = Some v) /\ (forall i, i ∉ is -> l' !! i = l !! i).
  Proof.
    revert l. induction is as [|i is IH]; intros l H; simpl in H.
    { injection H as <-. split_and!; [done| |done]. intros i Hi. by apply elem_of_nil in Hi. }
    destruct (Nat.ltb_spec i (length l)) as [Hi|]; [|done].
    destruct (IH _ H) as (I1 & I2 & I3). rewrite insert_length in I1. split; [done|]. split.
    - intros k Hk. destruct (decide (k ∈ is)) as [Hin|Hin]; [by apply I2|].
      apply elem_of_cons in Hk as [->|Hk]; [|done]. rewrite I3 by done. by apply list_lookup_insert.
    - intros k Hk. rewrite not_elem_of_cons in Hk. destruct Hk as [Hne Hk]. rewrite I3 by done.
      by apply list_lookup_insert_ne.
  Qed.
  Lemma write_all_total is (v : D) l : (forall i, i ∈ is -> i < length l) -> is_Some (write_all is v l).
  Proof.
    revert l. induction is as [|i is IH]; intros l H; simpl; [by eexists|].
    assert (Hi : i < length l) by (apply H; by left).
    destruct (Nat.ltb_spec i (length l)); [|lia]. apply IH. intros k Hk. rewrite insert_length.
    apply H. by right.
  Qed.
  Lemma gather_total f nxyz back cs l : mapping_ok nxyz back -> length cs <= length back -> nxyz <= length l ->
    is_Some (gather f back cs l).
  Proof.
    intros [H1 _]. revert back l H1. induction cs as [|c cs IH]; intros back l H1 Hl Hn; simpl; [by eexists|].
    destruct back as [|b back]; [simpl in Hl; lia|].
    assert (H1' : forall j b', back !! j = Some b' -> b' <> [] /\ forall i, i ∈ b' -> i < nxyz).
    { intros j b' Hj. by apply (H1 (S j)). }
    destruct (c_sol c) as [v|].
    - destruct (write_all_total b (f v) l) as [l' Hl'].
      { intros i Hi. destruct (H1 0 b) as [_ Hb]; [done|]. specialize (Hb i Hi). lia. }
      rewrite Hl'. apply write_all_spec in Hl' as (E & _). simpl in Hl.
      apply IH; [done|lia|]. by rewrite E.
    - cbn [drop]; rewrite drop_0. simpl in Hl. apply IH; [done| |done]. lia.
  Qed.
  Lemma gather_spec f back cs l l' :
    (forall j j' b b' i, back !! j = Some b -> back !! j' = Some b' -> i ∈ b -> i ∈ b' -> j = j') ->
    gather f back cs l = Some l' ->
    length l' = length l /\
    (forall j c v b i, cs !! j = Some c -> c_sol c = Some v -> back !! j = Some b -> i ∈ b -> l' !! i = Some (f v)) /\
    (forall i, (forall j c v b, cs !! j = Some c -> c_sol c = Some v -> back !! j = Some b -> i ∉ b) -> l' !! i = l !! i).
  Proof.
    revert back l. induction cs as [|c cs IH]; intros back l Hd H; simpl in H.
    { injection H as <-. split_and!; [done| |done]. intros j c v b i Hj. by rewrite lookup_nil in Hj. }
    assert (Hd' : forall b back', back = b :: back' -> forall j j' b b' i, back' !! j = Some b -> back' !! j' = Some b' -> i ∈ b -> i ∈ b' -> j = j').
    { intros b back' -> j j' x y i H1 H2 H3 H4. specialize (Hd (S j) (S j') x y i H1 H2 H3 H4). lia. }
    destruct (c_sol c) as [v|] eqn:Hc.
    - destruct back as [|b back]; [done|]. destruct (write_all b (f v) l) as [l1|] eqn:Hw; [|done].
      apply write_all_spec in Hw as (W1 & W2 & W3).
      destruct (IH back l1) as (I1 & I2 & I3); [by eapply Hd'|done|].
      split; [congruence|]. split.
      + intros [|j] c' v' b' i Hj Hv Hb Hi; simpl in *.
        * injection Hj as <-. injection Hb as <-. rewrite Hc in Hv. injection Hv as <-.
          rewrite I3; [by apply W2|]. intros k ck vk bk Hk _ Hbk Hik.
          specialize (Hd 0 (S k) b bk i eq_refl Hbk Hi Hik). done.
        * by eapply I2.
      + intros i Hi. rewrite I3.
        * apply W3. by apply (Hi 0 c v b).
        * intros j c' v' b' Hj Hv Hb. by apply (Hi (S j) c' v' b').
    - destruct back as [|b back].
      + cbn [drop] in H. destruct (IH [] l) as (I1 & I2 & I3); [|done|].
        { intros j j' x y i Hx. by rewrite lookup_nil in Hx. }
        split; [done|]. split.
        * intros j c' v' b' i Hj Hv Hb. by rewrite lookup_nil in Hb.
        * intros i Hi. apply I3. intros j c' v' b' Hj Hv Hb. by rewrite lookup_nil in Hb.
      + cbn [drop] in H. rewrite drop_0 in H. destruct (IH back l) as (I1 & I2 & I3); [by eapply Hd'|done|].
        split; [done|]. split.
        * intros [|j] c' v' b' i Hj Hv Hb Hi; simpl in *; [congruence|]. by eapply I2.
        * intros i Hi. apply I3. intros j c' v' b' Hj Hv Hb. by apply (Hi (S j) c' v' b').
  Qed.
  Lemma resize_length n (d : D) l : length (resize_vec n d l) = n.
  Proof. unfold resize_vec. rewrite app_length, take_length, replicate_length. lia. Qed.
  Lemma resize_lookup n (d : D) l i : i < n ->
    resize_vec n d l !! i = Some (default d (l !! i)).
  Proof.
    intros Hi. unfold resize_vec. destruct (decide (i < length l)) as [Hl|Hl].
    - destruct (lookup_lt_is_Some_2 l i Hl) as [x Hx]. rewrite lookup_app_l by (rewrite take_length; lia).
      rewrite lookup_take by lia. by rewrite Hx.
    - rewrite (lookup_ge_None_2 l i) by lia. rewrite lookup_app_r by (rewrite take_length; lia).
      rewrite take_length. rewrite lookup_replicate_2 by lia. done.
  Qed.
End settings.
