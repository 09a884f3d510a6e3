(** Lemmas for tables and arrays in Python *)
From Coq Require Import ZArith String Lia.
From stdpp Require Import prelude gmap stringmap.
From Verif.Python Require Import Model Spec.
Local Open Scope Z_scope.

Lemma count_small {A} (l : list A) : small l -> Z.to_nat (to_int (length l)) = length l.
Proof. unfold small, to_int. intros H. rewrite Z.mod_small by lia. lia. Qed.

Lemma pack_spec {A} (back : list (list A)) : forall counts elements,
  pack back counts elements = (counts ++ ((fun b => to_int (length b)) <$> back), elements ++ mjoin back).
Proof.
  induction back as [|b back IH]; intros counts elements; cbn; [by rewrite !app_nil_r|].
  rewrite IH. by rewrite <- !app_assoc.
Qed.

Lemma drop_cons {A} (l : list A) j x r : drop j l = x :: r -> l !! j = Some x /\ drop (S j) l = r.
Proof.
  intros H. split.
  - pose proof (lookup_drop l j 0) as H0. rewrite H in H0. cbn in H0. by rewrite Nat.add_0_r in H0.
  - assert (drop 1 (drop j l) = r) as <- by (rewrite H; done). rewrite drop_drop. f_equal. lia.
Qed.

Lemma take_cells_spec {A} (x : list A) : forall all j b rest, drop j all = x ++ rest ->
  take_cells (length x) all j b = Some (b ++ x, (j + length x)%nat) /\ drop (j + length x) all = rest.
Proof.
  induction x as [|a x IH]; intros all j b rest H; cbn.
  - rewrite app_nil_r, Nat.add_0_r. done.
  - cbn in H. apply drop_cons in H as [H1 H2]. rewrite H1.
    destruct (IH all (S j) (b ++ [a]) rest H2) as [E1 E2]. rewrite E1. split.
    + rewrite <- app_assoc. f_equal. f_equal. lia.
    + rewrite <- E2. f_equal. lia.
Qed.

Lemma back_rows_spec back : forall i all j d, Forall small back -> drop j all = mjoin back ->
  exists d', back_rows i ((fun b => to_int (length b)) <$> back) all j d = Some d' /\
    (forall n, (n < i)%nat -> d' !! n = d !! n) /\
    (forall n b, back !! n = Some b -> d' !! (i + n)%nat = Some b) /\
    (forall n, (i + length back <= n)%nat -> d' !! n = d !! n).
Proof.
  induction back as [|b back IH]; intros i all j d Hs Hd; cbn.
  - exists d. split_and!; try done.
  - apply Forall_cons in Hs as [Hb Hs]. cbn in Hd.
    destruct (take_cells_spec b all j [] _ Hd) as [E1 E2]. rewrite count_small by done. rewrite E1. cbn [app].
    destruct (IH (S i) all (j + length b)%nat (<[i := b]> d) Hs E2) as (d' & E & H1 & H2 & H3).
    exists d'. split_and!; [done| | |].
    + intros n Hn. rewrite H1 by lia. by rewrite lookup_insert_ne by lia.
    + intros [|n] b' Hn; cbn in Hn.
      * rewrite Nat.add_0_r, H1 by lia. rewrite lookup_insert. done.
      * replace (i + S n)%nat with (S i + n)%nat by lia. by apply H2.
    + intros n Hn. rewrite H3 by lia. by rewrite lookup_insert_ne by lia.
Qed.

Lemma py_backward_spec back nback cells : Forall small back ->
  exists d, py_backward back nback cells = Some d /\ holds_rows d back.
Proof.
  intros Hs. unfold py_backward, back_swig. rewrite pack_spec. cbn [app].
  destruct (back_rows_spec back 0 (mjoin back) 0 ∅ Hs eq_refl) as (d & E & H1 & H2 & H3).
  exists d. split; [done|]. intros i. destruct (back !! i) as [b|] eqn:Eb.
  - by apply (H2 i b).
  - rewrite H3; [done|]. by apply lookup_ge_None.
Qed.

Section stoichiometry.
  Context {Q : Type}.
  Implicit Types st : list (list (string * Q)).

  Lemma stoich_pack_spec names : forall st nelt elts coef, length names = length st ->
    stoich_pack names st nelt elts coef =
      Some (nelt ++ ((fun s => to_int (length s)) <$> st), elts ++ (mjoin st).*1, coef ++ (mjoin st).*2).
  Proof.
    induction names as [|s names IH]; intros [|r st] nelt elts coef H; try done; cbn.
    - by rewrite !app_nil_r.
    - cbn in H. rewrite IH by lia. rewrite <- !app_assoc. cbn [app]. by rewrite !fmap_app.
  Qed.

  Lemma take_elts_spec (x : list (string * Q)) : forall all j d rest, drop j all = x ++ rest ->
    exists d', take_elts (length x) all.*1 all.*2 j d = Some (d', (j + length x)%nat) /\
      drop (j + length x) all = rest /\
      (NoDup x.*1 -> forall e c, d' !! e = Some c <-> (e, c) ∈ x \/ (e ∉ x.*1 /\ d !! e = Some c)).
  Proof.
    induction x as [|[e0 c0] x IH]; intros all j d rest H; cbn.
    - exists d. rewrite Nat.add_0_r. split_and!; [done|done|]. intros _ e c. split.
      + intros He. right. split; [apply not_elem_of_nil|done].
      + intros [H0|[_ H0]]; [by apply elem_of_nil in H0|done].
    - cbn in H. apply drop_cons in H as [H1 H2]. rewrite !list_lookup_fmap, H1. cbn.
      destruct (IH all (S j) (<[e0 := c0]> d) rest H2) as (d' & E & Ed & Hd). exists d'. rewrite E. split_and!.
      + f_equal. f_equal. lia.
      + rewrite <- Ed. f_equal. lia.
      + intros [Hn0 Hn]%NoDup_cons e c. rewrite (Hd Hn e c). split.
        * intros [Hin|[Hni Hl]]; [left; by right|]. destruct (decide (e = e0)) as [->|Hne].
          -- rewrite lookup_insert in Hl. left. assert (c0 = c) as -> by congruence. by left.
          -- rewrite lookup_insert_ne in Hl by done. right. split; [|done].
             intros [?|?]%elem_of_cons; congruence.
        * intros [[Heq|Hin]%elem_of_cons|[Hni Hl]].
          -- right. assert (e = e0 /\ c = c0) as [-> ->] by (split; congruence).
             split; [done|]. by rewrite lookup_insert.
          -- by left.
          -- apply not_elem_of_cons in Hni as [Hne Hni]. right. split; [done|].
             by rewrite lookup_insert_ne by done.
  Qed.

  Lemma stoich_rows_spec names : forall st i nelt all j d,
    length names = length st -> Forall small st -> drop j all = mjoin st ->
    drop i nelt = (fun s => to_int (length s)) <$> st ->
    NoDup names -> Forall (fun r => NoDup r.*1) st ->
    exists d', stoich_rows names i nelt all.*1 all.*2 j d = Some d' /\
      (forall n s row, names !! n = Some s -> st !! n = Some row -> exists m, d' !! s = Some m /\ holds_entries m row) /\
      (forall s, s ∉ names -> d' !! s = d !! s).
  Proof.
    induction names as [|s names IH]; intros [|r st] i nelt all j d Hl Hs Hd Hc Hn Hk; try done; cbn.
    - exists d. split_and!; done.
    - cbn in Hl. apply Forall_cons in Hs as [Hr Hs]. apply Forall_cons in Hk as [Hkr Hk].
      apply NoDup_cons in Hn as [Hns Hn]. cbn in Hd, Hc. apply drop_cons in Hc as [Hc1 Hc2]. rewrite Hc1.
      destruct (take_elts_spec r all j ∅ _ Hd) as (m & E & Ed & Hm). rewrite count_small by done. rewrite E.
      destruct (IH st (S i) nelt all (j + length r)%nat (<[s := m]> d)) as (d' & E' & H1 & H2); [lia|done..|].
      exists d'. split_and!; [done| |].
      + intros [|n] s' row Hs' Hrow; cbn in Hs', Hrow; [|by apply (H1 n)].
        assert (s' = s) as -> by congruence. assert (row = r) as -> by congruence.
        exists m. split; [rewrite H2 by done; apply lookup_insert|].
        intros e c. rewrite (Hm Hkr e c). split; [|by left]. intros [?|[_ H0]]; [done|].
        by rewrite lookup_empty in H0.
      + intros s' [Hne Hni]%not_elem_of_cons. rewrite H2 by done. by rewrite lookup_insert_ne by done.
  Qed.

  Lemma py_stoichiometry_spec names st species :
    length names = length st -> Forall small st -> NoDup names -> Forall (fun r => NoDup r.*1) st ->
    exists d, py_stoichiometry names st species [] [] [] = Some d /\ holds_species d names st.
  Proof.
    intros Hl Hs Hn Hk. unfold py_stoichiometry, stoich_swig. rewrite stoich_pack_spec by done. cbn [app].
    destruct (stoich_rows_spec names st 0 ((fun s => to_int (length s)) <$> st) (mjoin st) 0 ∅) as (d & E & H1 & H2); try done.
    exists d. split; [done|]. split; [done|]. intros s Hni. rewrite H2 by done. apply lookup_empty.
  Qed.
End stoichiometry.

Lemma push_all_spec l : forall vv r,
  push_all l vv = r ->
  (exists zs, Forall2 is_int zs l /\ r = Vector (vv ++ zs)) \/
  (r = Raises /\ ~ exists zs, Forall2 is_int zs l).
Proof.
  induction l as [|v l IH]; intros vv r H; cbn in H.
  - left. exists []. split; [constructor|]. by rewrite app_nil_r.
  - destruct v as [z| |s].
    + destruct (decide (-2147483648 <= z <= 2147483647)) as [Hz|Hz].
      * destruct (IH _ _ H) as [(zs & Hzs & ->)|[-> Hno]].
        -- left. exists (z :: zs). split; [by constructor|]. by rewrite <- app_assoc.
        -- right. split; [done|]. intros (zs & Hzs). apply Forall2_cons_inv_r in Hzs as (x & zs' & _ & Hzs & _).
           apply Hno. by exists zs'.
      * right. split; [done|]. intros (zs & Hzs). apply Forall2_cons_inv_r in Hzs as (x & zs' & [Hx Hr] & _ & _).
        assert (x = z) as -> by congruence. done.
    + right. split; [done|]. intros (zs & Hzs). apply Forall2_cons_inv_r in Hzs as (x & zs' & [Hx Hr] & _ & _). done.
    + right. split; [done|]. intros (zs & Hzs). apply Forall2_cons_inv_r in Hzs as (x & zs' & [Hx Hr] & _ & _). done.
Qed.
