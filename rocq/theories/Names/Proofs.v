From Coq Require Import Ascii String Sorting.Sorted.
From stdpp Require Import prelude strings.
From Verif.Base Require Import Result.
From Verif.Names Require Import Model Spec.

(** ** Byte order *)
Lemma N_of_ascii_inj c d : N_of_ascii c = N_of_ascii d -> c = d.
Proof. intros H. by rewrite <- (ascii_N_embedding c), <- (ascii_N_embedding d), H. Qed.

Lemma scmp_eq a b : scmp a b = Eq <-> a = b.
Proof.
  revert b. induction a as [|c a IH]; intros [|d b]; simpl; try (by split).
  destruct (N.compare_spec (N_of_ascii c) (N_of_ascii d)) as [E|E|E].
  - apply N_of_ascii_inj in E as ->. rewrite IH. split; [by intros ->|by intros [=]].
  - split; [done|]. intros [= -> ->]. lia.
  - split; [done|]. intros [= -> ->]. lia.
Qed.
Lemma scmp_lt a b : scmp a b = Lt <-> before a b.
Proof.
  revert b. induction a as [|c a IH]; intros [|d b]; simpl; try (by split).
  destruct (N.compare_spec (N_of_ascii c) (N_of_ascii d)) as [E|E|E].
  - apply N_of_ascii_inj in E as ->. rewrite IH. split; [by right|]. intros [?|[_ ?]]; [lia|done].
  - split; [by left|done].
  - split; [done|]. intros [?|[-> ?]]; lia.
Qed.
Lemma scmp_gt a b : scmp a b = Gt <-> before b a.
Proof.
  revert b. induction a as [|c a IH]; intros [|d b]; simpl; try (by split).
  destruct (N.compare_spec (N_of_ascii c) (N_of_ascii d)) as [E|E|E].
  - apply N_of_ascii_inj in E as ->. rewrite IH. split; [by right|]. intros [?|[_ ?]]; [lia|done].
  - split; [done|]. intros [?|[-> ?]]; lia.
  - split; [by left|done].
Qed.
Lemma before_irrefl a : ~ before a a.
Proof. intros H. apply scmp_lt in H. by rewrite (proj2 (scmp_eq a a) eq_refl) in H. Qed.
Lemma before_trans a b c : before a b -> before b c -> before a c.
Proof.
  revert b c. induction a as [|x a IH]; intros [|y b] [|z c]; simpl; try done.
  intros [H1|[-> H1]] [H2|[-> H2]]; [left; lia|by left|by left|right; eauto].
Qed.
Lemma before_asym a b : before a b -> ~ before b a.
Proof. intros H1 H2. by apply (before_irrefl a), (before_trans _ b). Qed.
Lemma before_ne a b : before a b -> a <> b.
Proof. intros H ->. by apply before_irrefl in H. Qed.
Inductive cmp_cases (a b : string) : comparison -> Prop :=
| CmpLt : before a b -> cmp_cases a b Lt
| CmpEq : a = b -> cmp_cases a b Eq
| CmpGt : before b a -> cmp_cases a b Gt.
Lemma scmp_spec a b : cmp_cases a b (scmp a b).
Proof.
  destruct (scmp a b) eqn:E; constructor;
    [by apply scmp_eq|by apply scmp_lt|by apply scmp_gt].
Qed.

(** ** Maps *)
Section Maps.
  Context {V : Type}.
  Implicit Types l : list (string * V).

  Lemma ordered_nil : ordered (@nil (string * V)).
  Proof. constructor. Qed.
  Lemma ordered_cons n v l :
    ordered ((n, v) :: l) <-> ordered l /\ forall m w, (m, w) ∈ l -> before n m.
  Proof.
    unfold ordered. split.
    - intros H. apply StronglySorted_inv in H as [H1 H2]. split; [done|].
      intros m w Hm. rewrite Forall_forall in H2. by apply (H2 (m, w)).
    - intros [H1 H2]. constructor; [done|]. apply Forall_forall. intros [m w] Hm. by eapply H2.
  Qed.

  Lemma ordered_fun l n v w : ordered l -> (n, v) ∈ l -> (n, w) ∈ l -> v = w.
  Proof.
    induction l as [|[m x] l IH]; [by intros _ ?%elem_of_nil|].
    rewrite ordered_cons. intros [Ho Hb] H1 H2.
    apply elem_of_cons in H1 as [H1|H1]; apply elem_of_cons in H2 as [H2|H2].
    - congruence.
    - injection H1 as -> ->. by apply Hb, before_irrefl in H2.
    - injection H2 as -> ->. by apply Hb, before_irrefl in H1.
    - auto.
  Qed.

  Lemma nd_find_some l k v : ordered l -> nd_find k l = Some v <-> (k, v) ∈ l.
  Proof.
    induction l as [|[m x] l IH]; simpl.
    { intros _. split; [done|]. by intros ?%elem_of_nil. }
    rewrite ordered_cons. intros [Ho Hb]. rewrite elem_of_cons.
    destruct (scmp_spec k m) as [H|H|H].
    - split; [done|]. intros [[= -> ->]|Hin]; [by apply before_irrefl in H|].
      apply Hb in Hin. by apply before_asym in Hin.
    - subst. split; [intros [= ->]; by left|]. intros [[= ->]|Hin]; [done|].
      by apply Hb, before_irrefl in Hin.
    - rewrite (IH Ho). split; [by right|]. intros [[= -> ->]|Hin]; [by apply before_irrefl in H|done].
  Qed.
  Lemma nd_find_none l k : ordered l -> nd_find k l = None <-> forall v, (k, v) ∉ l.
  Proof.
    intros Ho. split.
    - intros H v Hv. apply nd_find_some in Hv; [|done]. by rewrite H in Hv.
    - intros H. destruct (nd_find k l) as [v|] eqn:E; [|done].
      apply nd_find_some in E; [|done]. by apply H in E.
  Qed.

  Lemma nd_set_elem l k x n v :
    ordered l -> (n, v) ∈ nd_set k x l <-> (n = k /\ v = x) \/ (n <> k /\ (n, v) ∈ l).
  Proof.
    induction l as [|[m y] l IH]; simpl.
    { intros _. rewrite elem_of_list_singleton. split; [intros [= -> ->]; by left|].
      intros [[-> ->]|[_ ?%elem_of_nil]]; done. }
    rewrite ordered_cons. intros [Ho Hb]. destruct (scmp_spec k m) as [H|H|H].
    - rewrite elem_of_cons. split.
      + intros [[= -> ->]|Hin]; [by left|]. right. split; [|done]. intros ->.
        apply elem_of_cons in Hin as [[= -> ->]|Hin]; [by apply before_irrefl in H|].
        apply Hb in Hin. by apply before_asym in Hin.
      + intros [[-> ->]|[_ ?]]; [by left|by right].
    - subst. rewrite !elem_of_cons. split.
      + intros [[= -> ->]|Hin]; [by left|]. right. split; [|by right]. intros ->.
        by apply Hb, before_irrefl in Hin.
      + intros [[-> ->]|[Hne [[= -> ->]|?]]]; [by left|done|by right].
    - rewrite !elem_of_cons, (IH Ho). split.
      + intros [[= -> ->]|[[-> ->]|[? ?]]]; [right; split; [|by left]|by left|right; split; [done|by right]].
        intros ->. by apply before_irrefl in H.
      + intros [[-> ->]|[? [?|?]]]; [right; by left|by left|right; by right].
  Qed.
  Lemma nd_set_ordered l k x : ordered l -> ordered (nd_set k x l).
  Proof.
    induction l as [|[m y] l IH]; simpl.
    { intros _. apply ordered_cons. split; [constructor|]. by intros ?? ?%elem_of_nil. }
    intros Hl. pose proof Hl as [Ho Hb]%ordered_cons. destruct (scmp_spec k m) as [H|H|H].
    - apply ordered_cons. split; [done|]. intros n w Hin.
      apply elem_of_cons in Hin as [[= -> ->]|Hin]; [done|]. apply Hb in Hin. by eapply before_trans.
    - apply ordered_cons. split; done.
    - apply ordered_cons. split; [auto|]. intros n w Hin. apply nd_set_elem in Hin; [|done].
      destruct Hin as [[-> ->]|[_ Hin]]; [done|by eapply Hb].
  Qed.

  Lemma nd_erase_elem l k n v :
    ordered l -> (n, v) ∈ nd_erase k l <-> n <> k /\ (n, v) ∈ l.
  Proof.
    induction l as [|[m y] l IH]; simpl.
    { intros _. split; [by intros ?%elem_of_nil|by intros [_ ?%elem_of_nil]]. }
    rewrite ordered_cons. intros [Ho Hb]. destruct (scmp_spec k m) as [H|H|H].
    - split; [|by intros [_ ?]]. intros Hin. split; [|done]. intros ->.
      apply elem_of_cons in Hin as [[= -> ->]|Hin]; [by apply before_irrefl in H|].
      apply Hb in Hin. by apply before_asym in Hin.
    - subst. rewrite elem_of_cons. split.
      + intros Hin. split; [|by right]. intros ->. by apply Hb, before_irrefl in Hin.
      + by intros [Hne [[= -> ->]|?]].
    - rewrite !elem_of_cons, (IH Ho). split.
      + intros [[= -> ->]|[? ?]]; [split; [|by left]|split; [done|by right]].
        intros ->. by apply before_irrefl in H.
      + intros [? [?|?]]; [by left|by right].
  Qed.
  Lemma nd_erase_ordered l k : ordered l -> ordered (nd_erase k l).
  Proof.
    induction l as [|[m y] l IH]; simpl; [done|].
    intros Hl. pose proof Hl as [Ho Hb]%ordered_cons. destruct (scmp_spec k m) as [H|H|H]; [done..|].
    apply ordered_cons. split; [auto|]. intros n w Hin. apply nd_erase_elem in Hin; [|done].
    destruct Hin as [_ Hin]. by eapply Hb.
  Qed.
  Lemma erase_prefix_elem l k n v :
    (n, v) ∈ erase_prefix k l <-> String.prefix k n = false /\ (n, v) ∈ l.
  Proof.
    unfold erase_prefix. rewrite elem_of_list_filter. cbn. destruct (String.prefix k n); naive_solver.
  Qed.
  Lemma erase_prefix_ordered l k : ordered l -> ordered (erase_prefix k l).
  Proof.
    induction l as [|[m y] l IH]; [done|]. intros [Ho Hb]%ordered_cons.
    unfold erase_prefix. rewrite filter_cons. cbn. case_decide as Hd; [|by apply IH].
    apply ordered_cons. split; [by apply IH|]. intros n w [_ Hin]%elem_of_list_filter. by eapply Hb.
  Qed.

  (** Two ordered lists with the same entries are the same list. *)
  Lemma ordered_ext l l' : ordered l -> ordered l' -> (forall n v, (n, v) ∈ l <-> (n, v) ∈ l') -> l = l'.
  Proof.
    revert l'. induction l as [|[m x] l IH]; intros [|[m' x'] l'] H1 H2 He.
    - done.
    - exfalso. eapply not_elem_of_nil, He, elem_of_list_here.
    - exfalso. eapply not_elem_of_nil, He, elem_of_list_here.
    - apply ordered_cons in H1 as [Ho Hb], H2 as [Ho' Hb'].
      assert ((m, x) = (m', x')) as E.
      { assert (H : (m, x) ∈ (m', x') :: l') by (apply He; left).
        assert (H' : (m', x') ∈ (m, x) :: l) by (apply He; left).
        apply elem_of_cons in H as [H|H]; [done|]. apply elem_of_cons in H' as [H'|H']; [done|].
        apply Hb' in H. apply Hb in H'. by apply before_asym in H. }
      injection E as -> ->. f_equal. apply IH; [done..|]. intros n v. split; intros Hin.
      + assert (H : (n, v) ∈ (m', x') :: l') by (apply He; by right).
        apply elem_of_cons in H as [[= -> ->]|H]; [|done]. by apply Hb, before_irrefl in Hin.
      + assert (H : (n, v) ∈ (m', x') :: l) by (apply He; by right).
        apply elem_of_cons in H as [[= -> ->]|H]; [|done]. by apply Hb', before_irrefl in Hin.
  Qed.
End Maps.

(** A computable test, for concrete lists. *)
Fixpoint ordb {V} (l : list (string * V)) : bool :=
  match l with
  | (a, _) :: (((b, _) :: _) as l') => match scmp a b with Lt => ordb l' | _ => false end
  | _ => true
  end.
Lemma ordb_ordered {V} (l : list (string * V)) : ordb l = true -> ordered l.
Proof.
  induction l as [|[a v] l IH]; intros H; [constructor|]. destruct l as [|[b w] l].
  { constructor; [constructor|constructor]. }
  change (match scmp a b with Lt => ordb ((b, w) :: l) | _ => false end = true) in H.
  destruct (scmp_spec a b) as [Hab|Hab|Hab]; [|done..]. specialize (IH H).
  apply ordered_cons. split; [done|]. intros m x Hin.
  apply elem_of_cons in Hin as [[= -> ->]|Hin]; [done|]. apply ordered_cons in IH as [_ IH].
  apply IH in Hin. by eapply before_trans.
Qed.

(** ** Element names *)
Lemma find_paren_element s :
  match find_paren s with Some i => prefix_of i s | None => s end = element s.
Proof.
  induction s as [|c s IH]; simpl; [done|]. unfold lparen.
  destruct (Ascii.eqb_spec c "("%char) as [->|Hc]; [by rewrite decide_True|].
  rewrite decide_False by done. destruct (find_paren s) as [i|]; simpl; by rewrite <- IH.
Qed.
Lemma find_paren_none s : find_paren s = None <-> element s = s.
Proof.
  induction s as [|c s IH]; simpl; [done|]. unfold lparen.
  destruct (Ascii.eqb_spec c "("%char) as [->|Hc]; [by rewrite decide_True|].
  rewrite decide_False by done. destruct (find_paren s) as [i|]; simpl.
  - split; [done|]. intros [= H]. by apply IH in H.
  - split; [|done]. intros _. f_equal. by apply IH.
Qed.
Lemma ename_element s : wf_name s -> ename s = element s.
Proof.
  intros [_ [H|H]]; unfold ename.
  - rewrite H. case_decide; [done|]. apply find_paren_none in H. by rewrite H.
  - rewrite decide_False by lia. apply find_paren_element.
Qed.

Lemma element_mono a b : plain (element a) -> before a b -> ~ before (element b) (element a).
Proof.
  revert b. induction a as [|c a IH]; intros [|d b]; simpl; try done.
  { intros _ _. case_decide; simpl; tauto. }
  case_decide as Hc.
  { intros _ _. case_decide; simpl; tauto. }
  intros [Hg Hp]. intros [H|[-> H]].
  - case_decide as Hd; simpl.
    + subst d. change (N_of_ascii "(") with 40%N in H. lia.
    + intros [?|[-> ?]]; lia.
  - rewrite decide_False by done. simpl. intros [?|[_ ?]]; [lia|]. by apply (IH b).
Qed.

Lemma element_idem s : element (element s) = element s.
Proof.
  induction s as [|c s IH]; simpl; [done|]. case_decide; [done|]. simpl. rewrite decide_False by done.
  by rewrite IH.
Qed.

(** ** Collapsing redox states *)
Section Simplify.
  Context {V : Type} (zero : V) (add : V -> V -> V).
  Implicit Types l old new : list (string * V).
  Local Notation wf l := (forall n v, (n, v) ∈ l -> wf_name n).

  Lemma amounts_none l e : (forall n v, (n, v) ∈ l -> element n <> e) -> amounts_of l e = [].
  Proof.
    induction l as [|[n v] l IH]; simpl; [done|]. intros H. rewrite decide_False.
    - apply IH. intros m w Hm. apply (H m w). by right.
    - apply (H n v). by left.
  Qed.

  Lemma sum_walk_cons o x old e y new :
    sum_walk add ((o, x) :: old) ((e, y) :: new) =
    match scmp e (ename o) with
    | Lt => (e, y) :: sum_walk add ((o, x) :: old) new
    | Eq => sum_walk add old ((e, add y x) :: new)
    | Gt => sum_walk add old ((e, y) :: new)
    end.
  Proof. done. Qed.
  Lemma sum_walk_nil_r old : sum_walk add old [] = [].
  Proof. by destruct old as [|[? ?] ?]. Qed.
  Lemma sum_walk_nil_l new : sum_walk add [] new = new.
  Proof. by destruct new. Qed.

  Lemma sum_walk_spec old new :
    ordered old -> wf old -> ordered new ->
    sum_walk add old new = map (fun p => (p.1, fold_left add (amounts_of old p.1) p.2)) new.
  Proof.
    intros Ho Hw. revert new. induction old as [|[o x] old IH]; intros new Hn.
    { rewrite sum_walk_nil_l. simpl. symmetry. rewrite <- (map_id new) at 2.
      apply map_ext. by intros [? ?]. }
    apply ordered_cons in Ho as [Ho Hb].
    assert (Hwo : wf_name o) by (apply (Hw o x); by left).
    assert (Hw' : wf old) by (intros n v Hin; apply (Hw n v); by right).
    specialize (IH Ho Hw').
    induction new as [|[e y] new IHn]; [done|].
    apply ordered_cons in Hn as [Hn Hne]. rewrite sum_walk_cons, (ename_element o Hwo).
    destruct (scmp_spec e (element o)) as [H|H|H].
    - cbn [map]. rewrite IHn by done. f_equal. simpl.
      rewrite decide_False by (intros E; rewrite E in H; by apply before_irrefl in H).
      rewrite amounts_none; [done|]. intros n v Hin E.
      apply Hb in Hin. apply (element_mono o n) in Hin; [|apply Hwo]. rewrite E in Hin. done.
    - rewrite IH by (apply ordered_cons; done). cbn [map fst snd]. f_equal.
      + simpl. rewrite decide_True by done. done.
      + apply map_ext_in. intros [e' y'] Hin. simpl. rewrite decide_False; [done|].
        intros E. apply elem_of_list_In in Hin. apply Hne in Hin. subst. by apply before_irrefl in Hin.
    - rewrite IH by (apply ordered_cons; done). apply map_ext_in. intros [e' y'] Hin. simpl.
      rewrite decide_False; [done|]. intros E. apply elem_of_list_In in Hin.
      apply elem_of_cons in Hin as [[= -> ->]|Hin].
      + rewrite E in H. by apply before_irrefl in H.
      + apply Hne in Hin. subst e'. by apply before_asym in Hin.
  Qed.

  Lemma skipped_spec e : skipped e = false <-> e <> "H"%string /\ e <> "O"%string /\ e <> "Charge"%string.
  Proof.
    unfold skipped. rewrite !orb_false_iff, !String.eqb_neq. tauto.
  Qed.

  Lemma elements_ordered l new : ordered new -> ordered (elements_of zero l new).
  Proof.
    revert new. induction l as [|[n v] l IH]; intros new H; simpl; [done|].
    apply IH. destruct (skipped _); [done|]. by apply nd_set_ordered.
  Qed.
  Lemma elements_elem l new e y :
    ordered new -> wf l -> (forall n v, (n, v) ∈ new -> v = zero) ->
    (e, y) ∈ elements_of zero l new <->
    (e, y) ∈ new \/ (y = zero /\ skipped e = false /\ exists n v, (n, v) ∈ l /\ element n = e).
  Proof.
    revert new. induction l as [|[n v] l IH]; intros new Ho Hw Hz; simpl.
    { split; [by left|]. intros [?|(_ & _ & n & v & ?%elem_of_nil & _)]; done. }
    assert (Hwn : wf_name n) by (apply (Hw n v); by left).
    rewrite (ename_element n Hwn).
    assert (Hw' : wf l) by (intros m w Hin; apply (Hw m w); by right).
    destruct (skipped (element n)) eqn:Hs.
    - rewrite (IH new Ho Hw' Hz). split.
      + intros [?|(? & ? & m & w & ? & ?)]; [by left|]. right. split_and!; [done..|].
        exists m, w. split; [by right|done].
      + intros [?|(? & Hk & m & w & Hin & He)]; [by left|]. right. split_and!; [done..|].
        apply elem_of_cons in Hin as [[= -> ->]|Hin]; [congruence|]. eauto.
    - rewrite IH; [|by apply nd_set_ordered|done|].
      2:{ intros m w Hin. apply nd_set_elem in Hin; [|done]. destruct Hin as [[-> ->]|[_ Hin]]; [done|eauto]. }
      rewrite nd_set_elem by done. split.
      + intros [[[-> ->]|[? ?]]|(? & ? & m & w & ? & ?)].
        * right. split_and!; [done..|]. exists n, v. split; [by left|done].
        * by left.
        * right. split_and!; [done..|]. exists m, w. split; [by right|done].
      + intros [Hin|(-> & Hk & m & w & Hin & He)].
        * destruct (decide (e = element n)) as [->|Hne]; [|left; by right].
          left; left. split; [done|by eapply Hz].
        * apply elem_of_cons in Hin as [[= -> ->]|Hin]; [left; by left|]. right. eauto 10.
  Qed.

  Theorem simplify_elem l e y :
    ordered l -> wf l ->
    (e, y) ∈ simplify_redox zero add l <->
    e <> "H"%string /\ e <> "O"%string /\ e <> "Charge"%string /\
    (exists n v, (n, v) ∈ l /\ element n = e) /\ y = element_sum zero add l e.
  Proof.
    intros Ho Hw. unfold simplify_redox.
    assert (Hn : ordered (elements_of zero l [])) by (apply elements_ordered, ordered_nil).
    assert (Hz : forall n v, (n, v) ∈ @nil (string * V) -> v = zero) by (by intros ?? ?%elem_of_nil).
    rewrite (sum_walk_spec l _ Ho Hw Hn). rewrite elem_of_list_fmap. unfold element_sum. split.
    - intros ([e' y'] & [= -> ->] & Hin). apply elements_elem in Hin; [|apply ordered_nil|done..].
      destruct Hin as [?%elem_of_nil|(-> & Hs & Hex)]; [done|]. apply skipped_spec in Hs. tauto.
    - intros (? & ? & ? & Hex & ->). exists (e, zero). split; [done|].
      apply elements_elem; [apply ordered_nil|done..|]. right. split_and!; [done| |done].
      apply skipped_spec. tauto.
  Qed.
  Theorem simplify_ordered l : ordered l -> wf l -> ordered (simplify_redox zero add l).
  Proof.
    intros Ho Hw. unfold simplify_redox.
    assert (Hn : ordered (elements_of zero l [])) by (apply elements_ordered, ordered_nil).
    rewrite (sum_walk_spec l _ Ho Hw Hn). clear -Hn. induction (elements_of zero l []) as [|[n v] k IH];
      [done|]. apply ordered_cons in Hn as [Hn Hb]. cbn [map]. apply ordered_cons. split; [by apply IH|].
    intros m w Hin. apply elem_of_list_fmap in Hin as ([m' w'] & [= -> ->] & Hin). by eapply Hb.
  Qed.

  Theorem total_element_spec l e : total_element zero add e l = element_sum zero add l e.
  Proof.
    unfold total_element, element_sum. generalize zero as z. induction l as [|[n v] l IH]; intros z; simpl; [done|].
    rewrite find_paren_element. destruct (String.eqb_spec (element n) e) as [E|E].
    - rewrite decide_True by done. simpl. apply IH.
    - rewrite decide_False by done. apply IH.
  Qed.
End Simplify.


Lemma simplify_plain {V} (zero : V) (add : V -> V -> V) (l : nmap V) :
  (forall x, add zero x = x) -> ordered l ->
  (forall n v, amount l n v ->
     plain n /\ ~ valence n /\ n <> "H"%string /\ n <> "O"%string /\ n <> "Charge"%string) ->
  simplify_redox zero add l = l.
Proof.
  intros Hz Ho Hw.
  assert (Hel : forall n v, (n, v) ∈ l -> element n = n).
  { intros n v Hin. apply Hw in Hin as (_ & Hv & _). unfold valence in Hv.
    destruct (decide (element n = n)); tauto. }
  assert (Hwf : forall n v, (n, v) ∈ l -> wf_name n).
  { intros n v Hin. split; [rewrite (Hel n v Hin); by apply Hw in Hin as [? _]|left; by eapply Hel]. }
  assert (Hsum : forall n v, (n, v) ∈ l -> element_sum zero add l n = v).
  { unfold element_sum. clear Hw Hwf. induction l as [|[m x] l IH]; intros n v Hin.
    { by apply elem_of_nil in Hin. }
    apply ordered_cons in Ho as [Ho Hb]. simpl.
    assert (Hel' : forall n v, (n, v) ∈ l -> element n = n) by (intros a b Hab; apply (Hel a b); by right).
    rewrite (Hel m x) by left. apply elem_of_cons in Hin as [[= -> ->]|Hin].
    - rewrite decide_True by done. simpl. rewrite Hz. rewrite amounts_none; [done|].
      intros a b Hab E. rewrite (Hel' a b Hab) in E. subst. by apply Hb, before_irrefl in Hab.
    - rewrite decide_False; [by apply (IH Ho Hel' n v)|].
      intros ->. by apply Hb, before_irrefl in Hin. }
  apply ordered_ext; [by apply simplify_ordered|done|]. intros n v. rewrite simplify_elem by done. split.
  - intros (_ & _ & _ & (m & x & Hin & <-) & ->). rewrite (Hel m x Hin). by rewrite (Hsum m x Hin).
  - intros Hin. pose proof (Hw n v Hin) as (_ & _ & ? & ? & ?). split_and!; [done..| |].
    + exists n, v. split; [done|by eapply Hel].
    + symmetry. by apply Hsum.
Qed.

(** ** Merging totals *)
Lemma redox_elt_spec s pos : find_paren s = Some pos ->
  redox_elt s pos = if decide (pos = 0) then s else drop_last (element s).
Proof.
  intros H. destruct pos as [|p]; [done|]. rewrite decide_False by done. simpl.
  revert p H. induction s as [|c s IH]; intros p; [done|]. simpl. unfold lparen.
  destruct (Ascii.eqb_spec c "("%char) as [->|Hc]; [done|]. rewrite decide_False by done.
  destruct (find_paren s) as [q|] eqn:E; [|done]. intros [= ->]. destruct p as [|p]; simpl.
  - destruct s as [|d s]; [done|]. simpl in E. unfold lparen in E.
    destruct (Ascii.eqb_spec d "("%char) as [->|Hd]; [done|]. by destruct (find_paren s).
  - rewrite (IH p) by done. destruct s as [|d s]; [done|]. simpl. simpl in E. unfold lparen in E.
    destruct (Ascii.eqb_spec d "("%char) as [->|Hd]; [done|]. by rewrite decide_False by done.
Qed.
Lemma find_paren_zero s : find_paren s = Some 0 -> element s = EmptyString.
Proof.
  destruct s as [|c s]; [done|]. simpl. unfold lparen.
  destruct (Ascii.eqb_spec c "("%char) as [->|Hc]; [done|]. by destruct (find_paren s).
Qed.
Lemma find_paren_succ s p : find_paren s = Some (S p) -> element s <> EmptyString.
Proof.
  destruct s as [|c s]; [done|]. simpl. unfold lparen.
  destruct (Ascii.eqb_spec c "("%char) as [->|Hc]; [done|]. by rewrite decide_False by done.
Qed.
Lemma find_paren_valence s : (exists i, find_paren s = Some i) <-> valence s.
Proof.
  unfold valence. rewrite <- find_paren_none. destruct (find_paren s); split; try done; eauto.
  by intros [? ?].
Qed.

Lemma prefix_paren n k : element n = n ->
  String.prefix (n ++ "(") k = true <-> valence k /\ element k = n.
Proof.
  revert k. induction n as [|c n IH]; intros k Hn.
  - change (("" ++ "(")%string) with "("%string. unfold valence.
    destruct k as [|d k]; [cbn; split; [done|by intros [? _]]|].
    cbn [String.prefix element]. destruct (ascii_dec "("%char d) as [<-|Hd].
    + rewrite decide_True by done. destruct k; split; done.
    + rewrite decide_False by congruence. split; [done|]. by intros [_ ?].
  - destruct k as [|d k]; [simpl; split; [done|by intros [_ ?]]|].
    simpl in Hn. case_decide as Hc; [done|]. injection Hn as Hn.
    change ((String c n ++ "(")%string) with (String c (n ++ "(")%string). cbn [String.prefix].
    unfold valence. simpl. destruct (ascii_dec c d) as [<-|Hd].
    + rewrite decide_False by done. rewrite IH by done. unfold valence. split.
      * intros [H1 H2]. split; [|by rewrite H2]. intros [= H]. done.
      * intros [H1 [= H2]]. split; [|done]. intros H. apply H1. by rewrite H.
    + split; [done|]. case_decide; [by intros [_ ?]|]. intros [_ [= ->]]. done.
Qed.

Section Merge.
  Context {V : Type}.
  Implicit Types l src : list (string * V).

  Lemma merge_one_ordered l p : ordered l -> ordered (merge_one l p).
  Proof.
    intros H. unfold merge_one. destruct (find_paren _);
      apply nd_set_ordered; [by apply nd_erase_ordered|by apply erase_prefix_ordered].
  Qed.
  Lemma merge_ordered l src : ordered l -> ordered (merge_redox l src).
  Proof.
    unfold merge_redox. revert l. induction src as [|p src IH]; intros l H; [done|]. simpl.
    by apply IH, merge_one_ordered.
  Qed.

  Lemma merge_one_bare l m x n v : ordered l -> ~ valence m ->
    (n, v) ∈ merge_one l (m, x) <->
    (n = m /\ v = x) \/ (n <> m /\ ~ (valence n /\ element n = m) /\ (n, v) ∈ l).
  Proof.
    intros Ho Hm. unfold merge_one. cbn [fst snd].
    destruct (find_paren m) as [i|] eqn:E.
    { exfalso. apply Hm, find_paren_valence. eauto. }
    apply find_paren_none in E. rewrite nd_set_elem by by apply erase_prefix_ordered.
    rewrite erase_prefix_elem. rewrite <- (not_true_iff_false (String.prefix _ _)), prefix_paren by done.
    tauto.
  Qed.
  Lemma merge_one_redox l m x n v : ordered l -> valence m -> element m <> EmptyString ->
    (n, v) ∈ merge_one l (m, x) <->
    (n = m /\ v = x) \/ (n <> m /\ n <> drop_last (element m) /\ (n, v) ∈ l).
  Proof.
    intros Ho Hm He. unfold merge_one. cbn [fst snd].
    apply find_paren_valence in Hm as [i Hi]. rewrite Hi.
    rewrite nd_set_elem by by apply nd_erase_ordered.
    rewrite nd_erase_elem by done. rewrite (redox_elt_spec m i Hi).
    rewrite decide_False; [tauto|]. intros ->. by apply He, find_paren_zero.
  Qed.

  (** No new total by valence state meets an old total of its bare element, nor an entry whose
      name is the element without its last letter. *)
  Definition merge_guard l src : Prop :=
    forall m x, (m, x) ∈ src -> valence m ->
      element m <> EmptyString /\ ~ named l (element m) /\
      ~ named l (drop_last (element m)) /\ ~ named src (drop_last (element m)).

  Lemma merge_spec l src : ordered l -> ordered src -> no_double src -> merge_guard l src ->
    forall n v, (n, v) ∈ merge_redox l src <->
      (n, v) ∈ src \/
      ((n, v) ∈ l /\ ~ named src n /\ forall m x, (m, x) ∈ src -> ~ replaces m n).
  Proof.
    unfold merge_redox. revert l. induction src as [|[m x] src IH]; intros l Hl Hs Hd Hg n v.
    { simpl. split; [|by intros [?%elem_of_nil|[? _]]]. intros H. right. split_and!; [done| |].
      - by intros [? ?%elem_of_nil].
      - by intros ?? ?%elem_of_nil. }
    cbn [fold_left]. apply ordered_cons in Hs as [Hs Hb].
    assert (Hd' : no_double src).
    { intros a b c Ha Hv Hc. apply (Hd a b c); [by right|done|by right]. }
    assert (Hfresh : forall w, (m, w) ∉ src).
    { intros w Hw. by apply Hb, before_irrefl in Hw. }
    (* the entry just merged does not meet the later ones *)
    assert (Hlater : forall m' x', (m', x') ∈ src -> ~ replaces m' m).
    { intros m' x' Hin [[Hv ->]|(Hv & Hv2 & He)].
      - apply (Hd m' x' x); [by right|done|by left].
      - apply (Hd m x x'); [by left|done|right; by rewrite He]. }
    assert (Hone : forall n v, (n, v) ∈ merge_one l (m, x) <->
               (n = m /\ v = x) \/ ((n, v) ∈ l /\ n <> m /\ ~ replaces m n)).
    { intros a b. destruct (decide (element m = m)) as [Hbare|Hval].
      - assert (Hm : ~ valence m) by (unfold valence; tauto).
        rewrite merge_one_bare by done. unfold replaces. tauto.
      - assert (Hm : valence m) by exact Hval.
        destruct (Hg m x) as (G1 & G2 & G3 & G4); [by left|done|].
        rewrite merge_one_redox by done. unfold replaces. split.
        + intros [?|(H1 & H2 & H3)]; [by left|]. right. split_and!; [done..|].
          intros [[_ ->]|[? _]]; [apply G2; by exists b|done].
        + intros [?|(H1 & H2 & H3)]; [by left|]. right. split_and!; [done| |done].
          intros ->. apply G3. by exists b. }
    rewrite IH; [|by apply merge_one_ordered|done..|].
    2:{ intros m' x' Hin Hv. destruct (Hg m' x') as (G1 & G2 & G3 & G4); [by right|done|].
        split_and!; [done| | |].
        - intros [w Hw]. apply Hone in Hw. destruct Hw as [[Hw _]|(Hw & _ & _)].
          + apply (Hd m' x' x); [by right|done|rewrite Hw; by left].
          + apply G2. by exists w.
        - intros [w Hw]. apply Hone in Hw. destruct Hw as [[Hw _]|(Hw & _ & _)].
          + apply G4. exists x. rewrite Hw. by left.
          + apply G3. by exists w.
        - intros [w Hw]. apply G4. exists w. by right. }
    rewrite Hone. split.
    - intros [H|([[-> ->]|(H1 & H2 & H3)] & H4 & H5)].
      + left. by right.
      + left. by left.
      + right. split_and!; [done| |].
        * intros [w Hw]. apply elem_of_cons in Hw as [[= -> ->]|Hw]; [done|]. apply H4. by exists w.
        * intros m' x' Hin. apply elem_of_cons in Hin as [[= -> ->]|Hin]; [done|eauto].
    - intros [H|(H1 & H2 & H3)].
      + apply elem_of_cons in H as [[= -> ->]|H]; [|by left]. right. split_and!; [by left| |done].
        intros [w Hw]. by apply Hfresh in Hw.
      + right. split_and!.
        * right. split_and!; [done| |].
          -- intros ->. apply H2. exists x. by left.
          -- apply (H3 m x). by left.
        * intros [w Hw]. apply H2. exists w. by right.
        * intros m' x' Hin. apply (H3 m' x'). by right.
  Qed.

  Lemma merge_no_double l src : ordered l -> ordered src -> no_double src -> merge_guard l src ->
    no_double l -> no_double (merge_redox l src).
  Proof.
    intros Hl Hs Hd Hg Hn n v w H1 Hv H2.
    apply (merge_spec l src) in H1; [|done..]. apply (merge_spec l src) in H2; [|done..].
    assert (Hbare : ~ valence (element n)) by (unfold valence; rewrite element_idem; tauto).
    destruct H1 as [H1|(H1 & H1a & H1b)], H2 as [H2|(H2 & H2a & H2b)].
    - by apply (Hd n v w).
    - apply (H2b n v H1). left. done.
    - apply (H1b _ _ H2). right. split_and!; done.
    - by apply (Hn n v w).
  Qed.

  (** What really happens when a valence state is given for an element that has a bare total. *)
  Lemma merge_keeps_bare l m x w : ordered l -> valence m -> element m <> EmptyString ->
    (element m, w) ∈ l ->
    (element m, w) ∈ merge_redox l [(m, x)] /\ (m, x) ∈ merge_redox l [(m, x)].
  Proof.
    intros Hl Hv He Hin. unfold merge_redox. cbn [fold_left].
    rewrite !merge_one_redox by done. split; [|by left]. right. split_and!; [exact Hv| |done].
    clear -He. induction (element m) as [|c s IH]; [done|]. destruct s as [|d s]; [done|].
    intros [= H]. by apply IH.
  Qed.
  Lemma merge_erases_other l m x : ordered l -> valence m -> element m <> EmptyString ->
    drop_last (element m) <> m -> ~ named (merge_redox l [(m, x)]) (drop_last (element m)).
  Proof.
    intros Hl Hv He Hne [w Hw]. unfold merge_redox in Hw. cbn [fold_left] in Hw.
    apply merge_one_redox in Hw; [|done..]. tauto.
  Qed.
End Merge.

(** ** Dictionaries *)
Lemma app_assoc_s (a b c : string) : ((a ++ b) ++ c = a ++ (b ++ c))%string.
Proof.
  induction a as [|x a IH]; [done|].
  change (String x ((a ++ b) ++ c) = String x (a ++ (b ++ c)))%string. by rewrite IH.
Qed.
Lemma text_of_app a b : text_of (a ++ b) = (text_of a ++ text_of b)%string.
Proof.
  induction a as [|w a IH]; [done|]. simpl. rewrite IH. by rewrite !app_assoc_s.
Qed.

Lemma lookup_snoc_Some {A} (l : list A) x i y :
  (l ++ [x]) !! i = Some y <-> (i < length l /\ l !! i = Some y) \/ (i = length l /\ x = y).
Proof.
  rewrite lookup_app_Some. split.
  - intros [H|[H1 H2]]; [left; split; [by eapply lookup_lt_Some|done]|].
    destruct (i - length l) as [|k] eqn:E; [|done]. injection H2 as <-. right. split; [lia|done].
  - intros [[_ H]|[-> ->]]; [by left|]. right. split; [done|]. by rewrite Nat.sub_diag.
Qed.

(** The invariant of every dictionary that can be built. *)
Record dict_ok (d : dictionary) : Prop := {
  dk_ord : ordered (d_map d);
  dk_map : forall s i, (s, i) ∈ d_map d <-> d_words d !! i = Some s;
  dk_len : length (d_map d) = length (d_words d);
  dk_txt : d_text d = text_of (d_words d);
}.
Lemma dict_ok_nodup d : dict_ok d -> NoDup (d_words d).
Proof.
  intros [Ho Hm _ _]. apply NoDup_alt. intros i j s Hi Hj. apply Hm in Hi, Hj.
  by eapply ordered_fun.
Qed.
Lemma empty_dict_ok : dict_ok empty_dict.
Proof.
  split; [apply ordered_nil| |done..]. intros s i. simpl. rewrite lookup_nil.
  split; [by intros ?%elem_of_nil|done].
Qed.
Lemma length_nd_set {V} k (x : V) l : nd_find k l = None -> length (nd_set k x l) = S (length l).
Proof.
  induction l as [|[n v] l IH]; simpl; [done|]. destruct (scmp k n); simpl; [done|done|].
  intros H. by rewrite IH.
Qed.
Lemma d_find_spec s d : dict_ok d ->
  dict_ok (snd (d_find s d)) /\ d_words (snd (d_find s d)) !! fst (d_find s d) = Some s /\
  (s ∈ d_words d -> snd (d_find s d) = d) /\
  (s ∉ d_words d -> fst (d_find s d) = length (d_words d) /\
     d_words (snd (d_find s d)) = d_words d ++ [s]).
Proof.
  intros Hd. pose proof Hd as [Ho Hm Hl Ht]. unfold d_find.
  destruct (nd_find s (d_map d)) as [i|] eqn:E; simpl.
  - apply nd_find_some in E; [|done]. apply Hm in E. split_and!; [done..|].
    intros Hn. destruct Hn. by eapply elem_of_list_lookup_2.
  - assert (Hnew : s ∉ d_words d).
    { intros Hin. apply elem_of_list_lookup in Hin as [i Hi]. apply Hm in Hi.
      pose proof (proj1 (nd_find_none _ _ Ho) E i). done. }
    split_and!; [|by rewrite Hl, list_lookup_middle|done|by rewrite Hl].
    split; simpl.
    + by apply nd_set_ordered.
    + intros t i. rewrite nd_set_elem by done. rewrite lookup_snoc_Some, Hl, Hm. split.
      * intros [[-> ->]|[Hne Hi]]; [by right|left]. split; [|done]. by eapply lookup_lt_Some.
      * intros [[Hi Hw]|[-> ->]]; [|by left]. right. split; [|done]. intros ->.
        apply Hnew. by eapply elem_of_list_lookup_2.
    + rewrite length_nd_set, app_length by done. simpl. lia.
    + rewrite text_of_app, Ht. simpl. by rewrite app_assoc_s.
Qed.

(** A sequence of lookups. *)
Fixpoint lookups (ss : list string) (d : dictionary) : list nat * dictionary :=
  match ss with
  | [] => ([], d)
  | s :: ss' => let r := lookups ss' (snd (d_find s d)) in (fst (d_find s d) :: fst r, snd r)
  end.

Lemma d_find_prefix s d : dict_ok d -> d_words d `prefix_of` d_words (snd (d_find s d)).
Proof.
  intros Hd. destruct (d_find_spec s d Hd) as (_ & _ & H1 & H2).
  destruct (decide (s ∈ d_words d)) as [Hin|Hin]; [by rewrite H1|].
  destruct (H2 Hin) as [_ ->]. by eexists.
Qed.
Lemma lookups_spec ss d : dict_ok d ->
  dict_ok (snd (lookups ss d)) /\ d_words d `prefix_of` d_words (snd (lookups ss d)) /\
  Forall2 (fun s i => d_words (snd (lookups ss d)) !! i = Some s) ss (fst (lookups ss d)) /\
  (forall w, w ∈ d_words (snd (lookups ss d)) <-> w ∈ d_words d \/ w ∈ ss).
Proof.
  revert d. induction ss as [|s ss IH]; intros d Hd; simpl.
  { split_and!; [done..|constructor|]. intros w. split; [by left|]. by intros [?|?%elem_of_nil]. }
  destruct (d_find_spec s d Hd) as (H1 & H2 & H3 & H4).
  destruct (IH _ H1) as (I1 & I2 & I3 & I4).
  pose proof (d_find_prefix s d Hd) as Hp.
  split_and!; [done|by etrans| |].
  - constructor; [|done]. by eapply prefix_lookup.
  - intros w. rewrite I4, elem_of_cons. destruct (decide (s ∈ d_words d)) as [Hin|Hin].
    + rewrite (H3 Hin). split; [tauto|]. intros [?|[->|?]]; [by left|by left|by right].
    + destruct (H4 Hin) as [_ ->]. rewrite elem_of_app, elem_of_list_singleton. tauto.
Qed.

(** Reading the text back. *)
Lemma getline_word n w r got : ~ has_char newline w -> String.length w <= n ->
  getline n got ((w ++ String newline EmptyString) ++ r) = Some (w, r).
Proof.
  revert n got. induction w as [|c w IH]; intros n got Hw Hl.
  - change ((EmptyString ++ String newline EmptyString) ++ r)%string with (String newline r).
    by destruct n.
  - change ((String c w ++ String newline EmptyString) ++ r)%string
      with (String c ((w ++ String newline EmptyString) ++ r)).
    cbn [getline]. simpl in Hw, Hl. destruct (Ascii.eqb_spec c newline) as [->|Hc].
    { exfalso. apply Hw. by left. }
    destruct n as [|n]; [lia|]. rewrite IH; [done|tauto|lia].
Qed.
Lemma cut_nul_id w : ~ has_char zero w -> cut_nul w = w.
Proof.
  induction w as [|c w IH]; intros H; [done|]. simpl in *.
  destruct (Ascii.eqb_spec c zero) as [->|Hc]; [exfalso; tauto|]. rewrite IH by tauto. done.
Qed.
Lemma length_app_s a b : String.length (a ++ b) = String.length a + String.length b.
Proof.
  induction a as [|c a IH]; [done|].
  change (S (String.length (a ++ b)) = S (String.length a + String.length b)). by rewrite IH.
Qed.
Lemma length_text ws : length ws <= String.length (text_of ws).
Proof.
  induction ws as [|w ws IH]; [done|]. cbn [text_of]. rewrite !length_app_s. simpl. lia.
Qed.
Lemma read_dict_words fuel ws d : length ws < fuel -> Forall printable ws ->
  read_dict fuel (text_of ws) d = snd (lookups ws d).
Proof.
  revert ws d. induction fuel as [|f IH]; intros ws d Hf Hp; [lia|].
  destruct ws as [|w ws]; [done|]. apply Forall_cons in Hp as [(P1 & P2 & P3) Hp].
  cbn [read_dict text_of]. change "010"%char with newline.
  rewrite getline_word by done. rewrite cut_nul_id by done. simpl in Hf.
  rewrite IH by (try done; lia). done.
Qed.
Lemma dict_ext d d' : dict_ok d -> dict_ok d' -> d_words d = d_words d' -> d = d'.
Proof.
  intros [O1 M1 L1 T1] [O2 M2 L2 T2] Hw. destruct d as [m w t], d' as [m' w' t']. simpl in *. subst w'.
  f_equal; [|congruence]. apply ordered_ext; [done..|]. intros n v. rewrite M1, M2. done.
Qed.
Lemma lookups_nodup ws d : dict_ok d -> NoDup ws -> (forall w, w ∈ ws -> w ∉ d_words d) ->
  d_words (snd (lookups ws d)) = d_words d ++ ws.
Proof.
  revert d. induction ws as [|w ws IH]; intros d Hd Hn Hf; simpl; [by rewrite app_nil_r|].
  destruct (d_find_spec w d Hd) as (H1 & H2 & H3 & H4).
  destruct H4 as [_ H4]; [apply Hf; by left|]. apply NoDup_cons in Hn as [Hw Hn].
  rewrite IH; [|done..|].
  - rewrite H4, <- app_assoc. done.
  - intros x Hx. rewrite H4, elem_of_app, elem_of_list_singleton. intros [Hin| ->]; [|done].
    apply (Hf x); [by right|done].
Qed.
Lemma dict_rebuild d : dict_ok d -> Forall printable (d_words d) -> dict_of_text (d_text d) = d.
Proof.
  intros Hd Hp. unfold dict_of_text. rewrite (dk_txt d Hd).
  rewrite read_dict_words; [|pose proof (length_text (d_words d)); lia|done].
  apply dict_ext; [by apply lookups_spec, empty_dict_ok|done|].
  rewrite lookups_nodup; [done|apply empty_dict_ok|by apply dict_ok_nodup|].
  intros w _ ?%elem_of_nil. done.
Qed.

(** ** Transfer form *)
Section CodecProofs.
  Context {V : Type}.
  Implicit Types l : list (string * V).

  Lemma ser_entries_spec l d ints (dbl : list V) : dict_ok d ->
    ser_entries l d ints dbl =
    (snd (lookups (map fst l) d), ints ++ map Z.of_nat (fst (lookups (map fst l) d)),
     dbl ++ map snd l).
  Proof.
    revert d ints dbl. induction l as [|[n v] l IH]; intros d ints dbl Hd; simpl.
    { by rewrite !app_nil_r. }
    rewrite IH by (by apply d_find_spec). by rewrite <- !app_assoc.
  Qed.

  Lemma lookup_pre {A} (a b : list A) i : (a ++ b) !! (length a + i) = b !! i.
  Proof. rewrite lookup_app_r by lia. f_equal. lia. Qed.

  Lemma deser_entries_spec l d ints ids (si : list Z) dbl (sd : list V) acc :
    Forall2 (fun s i => d_words d !! i = Some s) (map fst l) ids ->
    (forall n v, (n, v) ∈ l -> n <> EmptyString) ->
    deser_entries (length l) d (ints ++ map Z.of_nat ids ++ si) (dbl ++ map snd l ++ sd)
      (length ints) (length dbl) acc =
    Ret (fold_left (fun a p => nd_set p.1 p.2 a) l acc, length ints + length l, length dbl + length l).
  Proof.
    revert ints ids dbl acc. induction l as [|[n v] l IH]; intros ints ids dbl acc HF Hne.
    { simpl. by rewrite !Nat.add_0_r. }
    simpl in HF. apply Forall2_cons_inv_l in HF as (i & ids' & Hi & HF & ->).
    cbn [length deser_entries map fst snd fold_left app]. unfold at_int.
    assert (E1 : (ints ++ Z.of_nat i :: map Z.of_nat ids' ++ si) !! length ints = Some (Z.of_nat i))
      by (by apply list_lookup_middle).
    rewrite E1. cbn [obind]. destruct (Z.ltb_spec (Z.of_nat i) 0); [lia|]. rewrite Nat2Z.id, Hi.
    rewrite decide_False by (apply (Hne n v); left).
    assert (E2 : (dbl ++ v :: map snd l ++ sd) !! length dbl = Some v) by (by apply list_lookup_middle).
    rewrite E2.
    specialize (IH (ints ++ [Z.of_nat i]) ids' (dbl ++ [v]) (nd_set n v acc)).
    rewrite <- !app_assoc in IH. cbn [app] in IH. rewrite !app_length in IH. cbn [length] in IH.
    rewrite !Nat.add_1_r in IH. rewrite IH; [|done|].
    - do 2 f_equal; [f_equal|]; lia.
    - intros m w Hm. apply (Hne m w). by right.
  Qed.

  Lemma fold_set_elem l acc n v : ordered acc -> ordered l ->
    (n, v) ∈ fold_left (fun a p => nd_set p.1 p.2 a) l acc <->
    (n, v) ∈ l \/ (~ named l n /\ (n, v) ∈ acc).
  Proof.
    revert acc. induction l as [|[m x] l IH]; intros acc Ha Hl; simpl.
    { split; [|by intros [?%elem_of_nil|[_ ?]]]. intros H. right. split; [|done]. by intros [? ?%elem_of_nil]. }
    apply ordered_cons in Hl as [Hl Hb]. rewrite IH; [|by apply nd_set_ordered|done].
    rewrite nd_set_elem by done. rewrite elem_of_cons.
    assert (Hm : ~ named l m) by (intros [w Hw]; by apply Hb, before_irrefl in Hw).
    assert (Hc : named ((m, x) :: l) n <-> n = m \/ named l n).
    { unfold named. split.
      - intros [w Hw]. apply elem_of_cons in Hw as [[= -> ->]|Hw]; [by left|right; by exists w].
      - intros [->|[w Hw]]; [exists x; by left|exists w; by right]. }
    rewrite Hc. split.
    - intros [H|(H1 & [[-> ->]|[H2 H3]])]; [left; by right|left; by left|right; tauto].
    - intros [[[= -> ->]|H]|(H1 & H2)]; [right; tauto|by left|right; tauto].
  Qed.
  Lemma fold_set_ordered l acc : ordered acc -> ordered (fold_left (fun a p => nd_set p.1 p.2 a) l acc).
  Proof.
    revert acc. induction l as [|[m x] l IH]; intros acc H; simpl; [done|]. by apply IH, nd_set_ordered.
  Qed.
  Lemma fold_set_id l : ordered l -> fold_left (fun a p => nd_set p.1 p.2 a) l [] = l.
  Proof.
    intros H. apply ordered_ext; [apply fold_set_ordered, ordered_nil|done|].
    intros n v. rewrite fold_set_elem by (done || apply ordered_nil). split; [|by left].
    by intros [?|[_ ?%elem_of_nil]].
  Qed.

  Lemma codec_roundtrip l d ints (dbl : list V) d' ints' dbl' :
    dict_ok d -> ordered l -> (forall n v, (n, v) ∈ l -> n <> EmptyString) ->
    nd_serialize l d ints dbl = (d', ints', dbl') ->
    dict_ok d' /\ d_words d `prefix_of` d_words d' /\
    forall d2 si sd, d_words d' `prefix_of` d_words d2 ->
      nd_deserialize d2 (ints' ++ si) (dbl' ++ sd) (length ints) (length dbl) =
      Ret (l, length ints', length dbl').
  Proof.
    intros Hd Ho Hne. unfold nd_serialize. rewrite ser_entries_spec by done. intros [= <- <- <-].
    destruct (lookups_spec (map fst l) d Hd) as (L1 & L2 & L3 & _).
    set (ids := fst (lookups (map fst l) d)) in *. set (d1 := snd (lookups (map fst l) d)) in *.
    split_and!; [done..|]. intros d2 si sd Hp. unfold nd_deserialize, at_int.
    rewrite <- !app_assoc. cbn [app].
    assert (E : (ints ++ Z.of_nat (length l) :: map Z.of_nat ids ++ si) !! length ints
                = Some (Z.of_nat (length l))) by (by apply list_lookup_middle).
    rewrite E. cbn [obind]. rewrite Nat2Z.id.
    pose proof (deser_entries_spec l d2 (ints ++ [Z.of_nat (length l)]) ids si dbl sd []) as HS.
    rewrite <- app_assoc in HS. cbn [app] in HS. rewrite app_length in HS. cbn [length] in HS.
    rewrite Nat.add_1_r in HS. rewrite HS; [|eapply Forall2_impl; [exact L3|]|exact Hne].
    - rewrite fold_set_id by done. apply Forall2_length in L3. rewrite map_length in L3.
      rewrite !app_length. cbn [length]. rewrite !map_length.
      by replace (S (length ints) + length l) with (length ints + S (length ids)) by lia.
    - intros s i Hi. simpl in Hi. by eapply prefix_lookup.
  Qed.
End CodecProofs.
