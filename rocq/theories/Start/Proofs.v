(** Lemmas for the initialization of a BMI instance *)
From Coq Require Import String ZArith Lia.
From stdpp Require Import prelude strings.
From Verif.Base Require Import Result.
From Verif.Yaml Require Import Model Spec Proofs.
From Verif.Start Require Import Model Spec.
Local Open Scope Z_scope.

Section proofs.
  Context {D St : Type} (N : numbers D).

  (** One turn of the loop on a recorded call *)
  Lemma scan_emit (c : call D) doc fn ft i : ints_ok c ->
    scan (emit N c :: doc) fn ft i =
      match c with
      | YSetGridCellCount n => let i' := Init n (i_threads i) in if ft then Ret i' else scan doc true ft i'
      | YThreadCount n => let i' := Init (i_nxyz i) n in if fn then Ret i' else scan doc fn true i'
      | _ => if ft && fn then Ret i else scan doc fn ft i
      end.
  Proof.
    intros Hi. destruct c; try reflexivity.
    - cbn [scan]. unfold arg at 1. cbn -[as_int e_int scan]. unfold arg. cbn -[as_int e_int scan].
      unfold ints_ok in Hi. cbn in Hi. apply Forall_cons in Hi as [Hi _]. rewrite as_e_int by done. cbn -[scan].
      by rewrite andb_true_r.
    - cbn [scan]. unfold arg at 1. cbn -[as_int e_int scan]. unfold arg. cbn -[as_int e_int scan].
      unfold ints_ok in Hi. cbn in Hi. apply Forall_cons in Hi as [Hi _]. rewrite as_e_int by done. cbn -[scan]. done.
  Qed.

  Definition nonempty {A} (l : list A) : bool := match l with [] => false | _ => true end.
  (** From a part [q] already seen *)
  Lemma scan_looked cs : forall q i, Forall ints_ok cs -> nonempty (threads q) && nonempty (counts q) = false ->
    (forall q1 c r, q = q1 ++ c :: r -> counts q1 = [] \/ threads q1 = []) ->
    exists p, looked_at (q ++ cs) p /\
      scan (map (emit N) cs) (nonempty (counts q)) (nonempty (threads q))
        (Init (default (i_nxyz i) (last (counts q))) (default (i_threads i) (last (threads q)))) =
      Ret (Init (default (i_nxyz i) (last (counts p))) (default (i_threads i) (last (threads p)))).
  Proof.
    induction cs as [|c cs IH]; intros q i Hi Hb Hq.
    - exists q. split; [|done]. left. rewrite app_nil_r. done.
    - apply Forall_cons in Hi as [Hc Hi]. cbn [map]. rewrite scan_emit by done.
      assert (Hor : counts q = [] \/ threads q = []).
      { apply andb_false_iff in Hb as [Hb|Hb]; [right; by destruct (threads q)|left; by destruct (counts q)]. }
      assert (Hnext : forall q1 c1 r, q ++ [c] = q1 ++ c1 :: r -> counts q1 = [] \/ threads q1 = []).
      { intros q1 c1 r E. destruct r as [|c2 r _] using rev_ind.
        - apply app_inj_tail in E as [-> _]. done.
        - rewrite app_comm_cons, app_assoc in E. apply app_inj_tail in E as [-> _]. by apply (Hq q1 c1 r). }
      assert (Hgo : nonempty (threads (q ++ [c])) && nonempty (counts (q ++ [c])) = false ->
        exists p, looked_at (q ++ c :: cs) p /\
        scan (map (emit N) cs) (nonempty (counts (q ++ [c]))) (nonempty (threads (q ++ [c])))
          (Init (default (i_nxyz i) (last (counts (q ++ [c])))) (default (i_threads i) (last (threads (q ++ [c]))))) =
        Ret (Init (default (i_nxyz i) (last (counts p))) (default (i_threads i) (last (threads p))))).
      { intros Hb'. destruct (IH (q ++ [c]) i Hi Hb' Hnext) as (p & Hp & E). exists p.
        rewrite <- app_assoc in Hp. done. }
      assert (Hend : counts (q ++ [c]) <> [] -> threads (q ++ [c]) <> [] -> looked_at (q ++ c :: cs) (q ++ [c])).
      { intros H1 H2. right. exists q, c, cs. done. }
      unfold counts, threads in *. rewrite !omap_app in *.
      destruct c; cbn [omap list_omap] in *; rewrite ?app_nil_r in *;
        try (rewrite Hb; exact (Hgo Hb)).
      + rewrite last_snoc in Hgo. cbn [default i_threads i_nxyz] in *.
        assert (Hne : forall (l : list Z) x, nonempty (l ++ [x]) = true) by (intros [|? ?] ?; done).
        rewrite Hne, andb_true_r in Hgo.
        match goal with |- context [if ?b then Ret _ else _] => destruct b eqn:Et end.
        * exists (q ++ [YSetGridCellCount count]). split.
          -- apply Hend; [intros [_ H0]%app_eq_nil; done|intros H0; rewrite H0 in Et; done].
          -- rewrite !omap_app. cbn [omap list_omap]. rewrite app_nil_r, last_snoc. done.
        * by apply Hgo.
      + rewrite last_snoc in Hgo. cbn [default i_threads i_nxyz] in *.
        assert (Hne : forall (l : list Z) x, nonempty (l ++ [x]) = true) by (intros [|? ?] ?; done).
        rewrite Hne in Hgo. cbn [andb] in Hgo.
        match goal with |- context [if ?b then Ret _ else _] => destruct b eqn:Et end.
        * exists (q ++ [YThreadCount nthreads]). split.
          -- apply Hend; [intros H0; rewrite H0 in Et; done|intros [_ H0]%app_eq_nil; done].
          -- rewrite !omap_app. cbn [omap list_omap]. rewrite app_nil_r, last_snoc. done.
        * by apply Hgo.
  Qed.

  Lemma scan_record cs i : Forall ints_ok cs ->
    exists p, looked_at cs p /\
      scan (record N cs) false false i =
        Ret (Init (default (i_nxyz i) (last (counts p))) (default (i_threads i) (last (threads p)))).
  Proof.
    intros Hi. rewrite record_map. destruct (scan_looked cs [] i Hi eq_refl) as (p & Hp & E).
    - intros q1 c r H. by destruct q1.
    - exists p. split; [done|]. cbn in E. destruct i. exact E.
  Qed.
End proofs.
