From Coq Require Import String QArith Qcanon.
From stdpp Require Import prelude strings gmap.
From Verif.Base Require Import Result.
From Verif.Names Require Import Model Spec Proofs.
From Verif.Solution Require Import Model Spec Proofs Props.
From Verif.Reactant Require Import Model Spec Proofs.
From Verif.Init Require Import Model Spec.
Local Open Scope Qc_scope.

Lemma upd_same k f b : upd k f b k = f (b k).
Proof. by destruct k. Qed.
Lemma upd_other k f b j : k <> j -> upd k f b j = b j.
Proof. intros H. unfold upd. destruct (slot_eq_dec k j); [done|done]. Qed.

(** ** The mixing constructors read only the entries of the mix *)
Lemma mixed_ext {A} (add : A -> Qc -> A -> A) (t t' : gmap Z A) m z :
  (forall n, n ∈ map fst m -> t !! n = t' !! n) -> mixed add t m z = mixed add t' m z.
Proof.
  unfold mixed. revert z. induction m as [|[n x] m IH]; intros z H; cbn; [done|].
  rewrite <- (H n) by (cbn; set_solver). apply IH. intros k Hk. apply H. cbn. set_solver.
Qed.
Lemma gas_loop_ext (t t' : gmap Z gas) sum m first g acc :
  (forall n, n ∈ map fst m -> t !! n = t' !! n) ->
  gas_loop t sum m first g acc = gas_loop t' sum m first g acc.
Proof.
  revert first g acc. induction m as [|[n x] m IH]; intros first g acc H; cbn [gas_loop]; [done|].
  assert (H' : forall k, k ∈ map fst m -> t !! k = t' !! k) by (intros k Hk; apply H; cbn; set_solver).
  rewrite <- (H n) by (cbn; set_solver).
  destruct (t !! n); [|by apply IH]. destruct first; [by apply IH|].
  case_bool_decide; [by apply IH|done].
Qed.
Lemma mix_found_ext t t' m : (forall n, n ∈ map fst m -> t !! n = t' !! n) -> mix_found t m = mix_found t' m.
Proof.
  induction m as [|[n x] m IH]; intros H; cbn; [done|].
  rewrite <- (H n) by (cbn; set_solver). rewrite IH; [done|]. intros k Hk. apply H. cbn. set_solver.
Qed.
Lemma mix_of_ext k (t t' : gmap Z (ty k)) m :
  (forall n, n ∈ map fst m -> t !! n = t' !! n) -> mix_of k t m = mix_of k t' m.
Proof.
  intros H. destruct k; cbn.
  - unfold sol_mix. by rewrite (mix_found_ext t t').
  - by apply mixed_ext.
  - by apply mixed_ext.
  - by apply mixed_ext.
  - by apply gas_loop_ext.
  - by apply mixed_ext.
  - by apply mixed_ext.
Qed.

(** ** Amounts of a mixture of at most two definitions *)
Lemma mix_amount_add {A} (f : A -> Qc) t n x m :
  mix_amount f t (mix_add n x m) = (match t !! n with Some a => x * f a | None => 0 end) + mix_amount f t m.
Proof.
  induction m as [|[k h] m IH]; cbn [mix_add mix_amount]; [done|].
  destruct (Z.eqb_spec n k) as [->|Hk]; cbn [mix_amount].
  { destruct (t !! k); ring. }
  destruct (n <? k)%Z; cbn [mix_amount]; [done|].
  rewrite IH. ring.
Qed.
Lemma mix_amount_multiply {A} (f : A -> Qc) t x m :
  mix_amount f t (mix_multiply x m) = x * mix_amount f t m.
Proof.
  induction m as [|[k h] m IH]; cbn; [ring|]. unfold mix_multiply in IH. rewrite IH.
  destruct (t !! k); ring.
Qed.
Lemma mix_amount_weighted g t m : mix_amount g t m = weighted g (mix_found t m).
Proof.
  induction m as [|[k h] m IH]; cbn [mix_amount mix_found]; [done|].
  destruct (t !! k); cbn [weighted]; rewrite IH; ring.
Qed.

(** Tables that hold only compatible definitions *)
Definition coherent (k : slot) : gmap Z (ty k) -> Prop :=
  match k with
  | SlPP => fun t => exists fm, forall n p, t !! n = Some p -> pp_ok fm p
  | SlGas => fun t => exists gt, forall n p, t !! n = Some p -> g_type p = gt
  | SlSS => fun t => forall n p, t !! n = Some p -> ss_ok p
  | _ => fun _ => True
  end.
Lemma mix_of_linear k (t : gmap Z (ty k)) mx m : coherent k t -> measure k m ->
  m (mix_of k t mx) = mix_amount m t mx.
Proof.
  destruct k; cbn [coherent measure mix_of ty].
  - intros _ [Hm|[n ->]]; rewrite mix_amount_weighted; unfold sol_mix.
    + by apply mix_conserves.
    + apply (proj2 (mix_conserves _)).
  - intros [fm H] (q & _ & Hn & ->). by apply (pp_mix_linear fm q).
  - intros _ (q & _ & Hn & ->). by apply exch_mix_linear.
  - intros _ (q & _ & Hn & ->). by apply surf_mix_linear.
  - intros [gt H] (q & _ & Hn & ->). by apply (gas_mix_linear gt q).
  - intros H (q & _ & Hn & ->). by apply ssas_mix_linear.
  - intros _ (q & _ & Hn & ->). by apply kin_mix_linear.
Qed.

Lemma pair_mix_keys n1 x1 n2 x2 n : n ∈ map fst (pair_mix n1 x1 n2 x2) -> n = n1 \/ (n = n2 /\ (0 <= n2)%Z).
Proof.
  unfold pair_mix. destruct (Z.leb_spec 0 n2); cbn.
  - destruct (n2 =? n1)%Z eqn:E; cbn; [|destruct (n2 <? n1)%Z; cbn]; rewrite ?elem_of_cons, elem_of_nil; naive_solver.
  - rewrite elem_of_cons, elem_of_nil. naive_solver.
Qed.
Lemma pair_mix_scaled n1 x1 n2 x2 x m : m ∈ map fst (mix_multiply x (pair_mix n1 x1 n2 x2)) ->
  m = n1 \/ (m = n2 /\ (0 <= n2)%Z).
Proof.
  intros H. apply (pair_mix_keys n1 x1 n2 x2). unfold mix_multiply in H. rewrite map_map in H.
  cbn in H. exact H.
Qed.

(** A table with one or two definitions *)
Lemma coherent_pair k (n1 n2 : Z) (a1 a2 : ty k) : compatible k a1 a2 ->
  coherent k (<[n1 := a1]> (<[n2 := a2]> ∅)).
Proof.
  destruct k; cbn [compatible coherent ty]; try done.
  - intros (fm & H1 & H2). exists fm. intros n p.
    rewrite lookup_insert_Some. intros [[_ <-]|[_ H]]; [done|].
    rewrite lookup_insert_Some in H. destruct H as [[_ <-]|[_ H]]; [done|]. by rewrite lookup_empty in H.
  - intros H1. exists (g_type a1). intros n p.
    rewrite lookup_insert_Some. intros [[_ <-]|[_ H]]; [done|].
    rewrite lookup_insert_Some in H. destruct H as [[_ <-]|[_ H]]; [done|]. by rewrite lookup_empty in H.
  - intros [H1 H2] n p.
    rewrite lookup_insert_Some. intros [[_ <-]|[_ H]]; [done|].
    rewrite lookup_insert_Some in H. destruct H as [[_ <-]|[_ H]]; [done|]. by rewrite lookup_empty in H.
Qed.

Lemma mix_pair k (t : gmap Z (ty k)) n1 n2 a1 a2 mx m :
  t !! n1 = Some a1 -> t !! n2 = Some a2 -> compatible k a1 a2 -> measure k m ->
  (forall n, n ∈ map fst mx -> n = n1 \/ n = n2) ->
  m (mix_of k t mx) = mix_amount m t mx.
Proof.
  intros H1 H2 Hc Hm Hk.
  assert (E : forall n, n ∈ map fst mx -> t !! n = (<[n1 := a1]> (<[n2 := a2]> ∅) : gmap Z (ty k)) !! n).
  { intros n Hn. destruct (decide (n = n1)) as [->|N1]; [by rewrite lookup_insert|].
    rewrite lookup_insert_ne by done. destruct (Hk _ Hn) as [->| ->]; [done|]. by rewrite lookup_insert. }
  rewrite (mix_of_ext k _ _ _ E), mix_of_linear by (done || by apply coherent_pair).
  clear -E. induction mx as [|[n x] mx IH]; cbn; [done|].
  rewrite <- (E n) by (cbn; set_solver). rewrite IH; [done|]. intros k' Hk'. apply E. cbn. set_solver.
Qed.

Lemma factors_basis por rv u x : factors por rv !! u = Some x -> x = basis u por rv.
Proof.
  destruct u as [|[|[|u]]]; cbn; intros [= <-]; try done; ring.
Qed.

(** ** What a block builds *)
Lemma vol_of_eq (t : gmap Z sol) n a : t !! n = Some a -> vol_of t n = s_vol a.
Proof. intros H. unfold vol_of. by rewrite H. Qed.
Lemma rd_ret {A} (l : list A) i a : rd l i = Ret a -> l !! i = Some a.
Proof. unfold rd. destruct (l !! i); [by intros [= ->]|done]. Qed.

Lemma build_two t g por sat rv f1 n1 n2 k e a1 a2 :
  build t g por sat rv f1 n1 n2 k = Ret e -> (0 <= n2)%Z ->
  t k !! n1 = Some a1 -> t k !! n2 = Some a2 -> compatible k a1 a2 ->
  blend2 k (share k (g_units g k) f1 por sat rv a1) a1 (share k (g_units g k) (1 - f1) por sat rv a2) a2 e.
Proof.
  intros Hb Hn2 H1 H2 Hc m Hm.
  assert (Hn2' : (0 <=? n2)%Z = true) by lia.
  destruct (decide (k = SlSol)) as [->|Hk].
  - cbn in Hb. injection Hb as <-. unfold build_sol.
    change (m (mix_of SlSol (t SlSol) (pair_mix n1 (f1 * por * sat * rv / vol_of (t SlSol) n1) n2
       ((1 - f1) * por * sat * rv / vol_of (t SlSol) n2))) =
      share SlSol (g_units g SlSol) f1 por sat rv a1 * m a1 + share SlSol (g_units g SlSol) (1 - f1) por sat rv a2 * m a2).
    rewrite (mix_pair SlSol _ n1 n2 a1 a2) by (done || (intros n Hn; apply pair_mix_keys in Hn; naive_solver)).
    unfold pair_mix. rewrite Hn2', !mix_amount_add, H1, H2. cbn [mix_amount share].
    rewrite (vol_of_eq _ _ _ H1), (vol_of_eq _ _ _ H2). unfold water, Qcdiv. ring.
  - assert (Hb' : exists x, factors por rv !! g_units g k = Some x /\
        e = mix_of k (t k) (mix_multiply x (pair_mix n1 f1 n2 (1 - f1)))).
    { clear -Hb Hk. destruct k; [done|..]; cbn [build] in Hb;
        (destruct (rd (factors por rv) (g_units g _)) as [x| |] eqn:E in Hb; [|done|done]);
        apply rd_ret in E; cbn [obind] in Hb; injection Hb as <-; by exists x. }
    destruct Hb' as (x & Hx & ->). apply factors_basis in Hx as ->.
    rewrite (mix_pair k _ n1 n2 a1 a2) by (done || (intros n Hn; apply pair_mix_scaled in Hn; naive_solver)).
    rewrite mix_amount_multiply. unfold pair_mix. rewrite Hn2', !mix_amount_add, H1, H2. cbn [mix_amount].
    destruct k; [done|..]; cbn [share]; ring.
Qed.
Lemma build_one t g por sat rv f1 n1 n2 k e a1 :
  build t g por sat rv f1 n1 n2 k = Ret e -> (n2 < 0)%Z ->
  t k !! n1 = Some a1 -> compatible k a1 a1 ->
  blend1 k (share k (g_units g k) f1 por sat rv a1) a1 e.
Proof.
  intros Hb Hn2 H1 Hc m Hm.
  assert (Hn2' : (0 <=? n2)%Z = false) by lia.
  destruct (decide (k = SlSol)) as [->|Hk].
  - cbn in Hb. injection Hb as <-. unfold build_sol.
    change (m (mix_of SlSol (t SlSol) (pair_mix n1 (f1 * por * sat * rv / vol_of (t SlSol) n1) n2
       ((1 - f1) * por * sat * rv / vol_of (t SlSol) n2))) =
      share SlSol (g_units g SlSol) f1 por sat rv a1 * m a1).
    rewrite (mix_pair SlSol _ n1 n1 a1 a1) by (done || (intros n Hn; apply pair_mix_keys in Hn; destruct Hn as [?|[_ ?]]; [by left|lia])).
    unfold pair_mix. rewrite Hn2', !mix_amount_add, H1. cbn [mix_amount share].
    rewrite (vol_of_eq _ _ _ H1). unfold water, Qcdiv. ring.
  - assert (Hb' : exists x, factors por rv !! g_units g k = Some x /\
        e = mix_of k (t k) (mix_multiply x (pair_mix n1 f1 n2 (1 - f1)))).
    { clear -Hb Hk. destruct k; [done|..]; cbn [build] in Hb;
        (destruct (rd (factors por rv) (g_units g _)) as [x| |] eqn:E in Hb; [|done|done]);
        apply rd_ret in E; cbn [obind] in Hb; injection Hb as <-; by exists x. }
    destruct Hb' as (x & Hx & ->). apply factors_basis in Hx as ->.
    rewrite (mix_pair k _ n1 n1 a1 a1) by (done || (intros n Hn; apply pair_mix_scaled in Hn; destruct Hn as [?|[_ ?]]; [by left|lia])).
    rewrite mix_amount_multiply. unfold pair_mix. rewrite Hn2', !mix_amount_add, H1. cbn [mix_amount].
    destruct k; [done|..]; cbn [share]; ring.
Qed.

(** ** The blocks of a cell *)
Definition missing (t : tables) (nxyz : nat) (ic1 ic2 : list Z) (j : nat) (k : slot) (n : Z) : Prop :=
  (0 <= n)%Z /\ ((asked ic1 nxyz k j n /\ t k !! n = None) \/
                 (asked ic2 nxyz k j n /\ t (lookup_second k) !! n = None)).
(** What slot [k] of a cell becomes. *)
Definition filled (t : tables) (g : grid) (por sat rv : Qc) (ic1 ic2 : list Z) (fr : list Qc) (j : nat)
    (k : slot) (old new : option (ty k)) : Prop :=
  exists n1 n2 f1, asked ic1 (g_nxyz g) k j n1 /\ asked ic2 (g_nxyz g) k j n2 /\ asked fr (g_nxyz g) k j f1 /\
    ((n1 < 0)%Z -> new = old) /\
    ((0 <= n1)%Z -> exists e, build t g por sat rv f1 n1 n2 k = Ret e /\ new = Some e).

Lemma defined_false t k n : defined t k n = false <-> t k !! n = None.
Proof.
  unfold defined. rewrite bool_decide_eq_false. split.
  - intros H. destruct (t k !! n); [|done]. by destruct H.
  - intros -> [? ?]. done.
Qed.
Lemma bad_iff t k n : ((0 <=? n)%Z && negb (defined t k n))%bool = true <-> (0 <= n)%Z /\ t k !! n = None.
Proof. rewrite andb_true_iff, negb_true_iff, defined_false, Z.leb_le. done. Qed.
Lemma elem_of_if {A} (b : bool) (x y : A) : y ∈ (if b then [x] else []) <-> b = true /\ y = x.
Proof. destruct b; [rewrite elem_of_cons, elem_of_nil|rewrite elem_of_nil]; naive_solver. Qed.

Section cell.
  Context (t : tables) (g : grid) (por sat rv : Qc) (ic1 ic2 : list Z) (fr : list Qc) (j : nat) (n : Z).
  Local Notation miss := (missing t (g_nxyz g) ic1 ic2 j).

  Lemma block_spec k p p' : block t g por sat rv ic1 ic2 fr j n k p = Ret p' ->
    (forall q, q ∈ p_msgs p' <-> q ∈ p_msgs p \/ (q.1 = k /\ miss k q.2)) /\
    (p_ok p' = true <-> p_ok p = true /\ forall m, ~ miss k m) /\
    (forall k', k' <> k -> p_bin p' k' = p_bin p k') /\
    (p_ok p' = true -> p_bin p k = ∅ -> filled t g por sat rv ic1 ic2 fr j k None (p_bin p' k !! n)) /\
    (forall c, c <> n -> p_bin p' k !! c = p_bin p k !! c).
  Proof.
    unfold block. intros H.
    destruct (rd ic1 _) as [n1| |] eqn:E1; [|done|done]. cbn [obind] in H.
    destruct (rd ic2 _) as [n2| |] eqn:E2; [|done|done]. cbn [obind] in H.
    apply rd_ret in E1, E2.
    set (b1 := ((0 <=? n1)%Z && negb (defined t k n1))%bool) in *.
    set (b2 := ((0 <=? n2)%Z && negb (defined t (lookup_second k) n2))%bool) in *.
    assert (M : forall m, miss k m <-> (b1 = true /\ m = n1) \/ (b2 = true /\ m = n2)).
    { intros m. unfold b1, b2. rewrite !bad_iff. unfold missing, asked. split.
      - intros [Hm [[A B]|[A B]]]; [left|right].
        + rewrite E1 in A. injection A as ->. done.
        + rewrite E2 in A. injection A as ->. done.
      - intros [[[A B] ->]|[[A B] ->]]; (split; [done|]); [left|right]; done. }
    assert (Hmsg : forall q, q ∈ p_msgs p ++ (if b1 then [(k, n1)] else []) ++ (if b2 then [(k, n2)] else []) <->
       q ∈ p_msgs p \/ (q.1 = k /\ miss k q.2)).
    { intros [k' m]. rewrite !elem_of_app, !elem_of_if, M. cbn. naive_solver. }
    assert (Hok : (p_ok p && negb b1 && negb b2)%bool = true <-> p_ok p = true /\ forall m, ~ miss k m).
    { rewrite !andb_true_iff, !negb_true_iff. split.
      - intros [[A B] C]. split; [done|]. intros m. rewrite M, B, C. naive_solver.
      - intros [A B]. repeat split; [done|..]; apply not_true_is_false; intros C.
        + apply (B n1). apply M. auto.
        + apply (B n2). apply M. auto. }
    destruct (p_ok p && negb b1 && negb b2)%bool eqn:Eok.
    - destruct (rd fr _) as [f1| |] eqn:E3; [|done|done]. cbn [obind] in H. apply rd_ret in E3.
      destruct (Z.leb_spec 0 n1) as [Hn1|Hn1].
      + destruct (build t g por sat rv f1 n1 n2 k) as [e| |] eqn:Eb; [|done|done]. cbn [obind] in H.
        injection H as <-. cbn [p_ok p_msgs p_bin].
        split; [done|]. split; [done|]. split; [|split].
        * intros k' Hk'. by apply upd_other.
        * intros _ _. exists n1, n2, f1. split; [done|]. split; [done|]. split; [done|]. split; [lia|].
          intros _. exists e. split; [done|]. by rewrite upd_same, lookup_insert.
        * intros c Hc. by rewrite upd_same, lookup_insert_ne.
      + injection H as <-. cbn [p_ok p_msgs p_bin].
        split; [done|]. split; [done|]. split; [done|]. split; [|done].
        intros _ Hb. exists n1, n2, f1. rewrite Hb. split; [done|]. split; [done|]. split; [done|]. split; [done|]. lia.
    - injection H as <-. cbn [p_ok p_msgs p_bin]. split; [done|]. split; [done|]. by split; [|split].
  Qed.

  Lemma blocks_spec ks p p' : NoDup ks -> blocks t g por sat rv ic1 ic2 fr j n ks p = Ret p' ->
    (forall q, q ∈ p_msgs p' <-> q ∈ p_msgs p \/ (q.1 ∈ ks /\ miss q.1 q.2)) /\
    (p_ok p' = true <-> p_ok p = true /\ forall k m, k ∈ ks -> ~ miss k m) /\
    (forall k, k ∉ ks -> p_bin p' k = p_bin p k) /\
    (p_ok p' = true -> forall k, k ∈ ks -> p_bin p k = ∅ ->
       filled t g por sat rv ic1 ic2 fr j k None (p_bin p' k !! n)) /\
    (forall k c, c <> n -> p_bin p' k !! c = p_bin p k !! c).
  Proof.
    intros Hnd. revert p. induction Hnd as [|k ks Hk Hnd IH]; intros p H; cbn [blocks] in H.
    { injection H as <-. split; [set_solver|]. split; [set_solver|]. split; [done|]. split; [set_solver|done]. }
    destruct (block t g por sat rv ic1 ic2 fr j n k p) as [p1| |] eqn:E; [|done|done]. cbn [obind] in H.
    destruct (block_spec _ _ _ E) as (M & O & B & F & X).
    destruct (IH _ H) as (M' & O' & B' & F' & X').
    split; [|split; [|split; [|split]]].
    - intros [k' m]. rewrite M', M, elem_of_cons. cbn [fst snd]. naive_solver.
    - rewrite O', O. split.
      + intros [[A C] D]. split; [done|]. intros k' m [->|Hk']%elem_of_cons; [done|by apply D].
      + intros [A C]. split; [split; [done|]|].
        * intros m. apply C. by left.
        * intros k' m Hk'. apply C. by right.
    - intros k' [Hk' Hks]%not_elem_of_cons. by rewrite B', B.
    - intros Ho k' [->|Hk']%elem_of_cons Hb.
      + rewrite B' by done. apply F; [|done]. by apply O' in Ho as [? _].
      + apply F'; [done|done|]. rewrite B; [done|]. intros ->. done.
    - intros k' c Hc. rewrite X' by done. destruct (decide (k' = k)) as [->|Hk']; [by apply X|by rewrite B].
  Qed.

  Lemma slots_nodup : NoDup slots.
  Proof. unfold slots. repeat constructor; set_solver. Qed.
  Lemma elem_of_slots k : k ∈ slots.
  Proof. destruct k; unfold slots; set_solver. Qed.

  Lemma filled_weaken k old new : filled t g por sat rv ic1 ic2 fr j k None new ->
    filled t g por sat rv ic1 ic2 fr j k old (match new with Some e => Some e | None => old end).
  Proof.
    intros (n1 & n2 & f1 & A & B & C & D & E). exists n1, n2, f1.
    split; [done|]. split; [done|]. split; [done|]. split.
    - intros H. by rewrite (D H).
    - intros H. destruct (E H) as (e & ? & ->). by exists e.
  Qed.
End cell.

Lemma cell_init_spec t g ic1 ic2 fr j n w0 ok msgs w' :
  cell_init t g ic1 ic2 fr j n w0 = Ret (ok, msgs, w') ->
  exists por sat rv, g_por g !! j = Some por /\ g_sat g !! j = Some sat /\ g_rv g !! j = Some rv /\
  (ok = true <-> forall k m, ~ missing t (g_nxyz g) ic1 ic2 j k m) /\
  (forall q, q ∈ msgs <-> missing t (g_nxyz g) ic1 ic2 j q.1 q.2) /\
  (ok = false -> w' = w0) /\
  (forall k c, c <> n -> w' k !! c = w0 k !! c) /\
  (ok = true -> forall k, filled t g por sat rv ic1 ic2 fr j k (w0 k !! n) (w' k !! n)).
Proof.
  unfold cell_init. intros H.
  destruct (rd (g_por g) j) as [por| |] eqn:E1; [|done|done].
  destruct (rd (g_rv g) j) as [rv| |] eqn:E2; [|done|done].
  destruct (rd (g_sat g) j) as [sat| |] eqn:E3; [|done|done]. cbn [obind] in H.
  destruct (blocks _ _ _ _ _ _ _ _ _ _ _ _) as [p| |] eqn:Eb; [|done|done]. cbn [obind] in H.
  injection H as <- <- <-. apply rd_ret in E1, E2, E3. exists por, sat, rv.
  split; [done|]. split; [done|]. split; [done|].
  destruct (blocks_spec _ _ _ _ _ _ _ _ _ _ _ _ _ slots_nodup Eb) as (M & O & _ & F & X).
  cbn [p_ok p_msgs p_bin] in *.
  split; [|split; [|split; [|split]]].
  - rewrite O. split; [|naive_solver]. intros [_ H] k m. apply H, elem_of_slots.
  - intros q. rewrite M, elem_of_nil. split; [naive_solver|]. intros Hq. right. split; [apply elem_of_slots|done].
  - by intros ->.
  - intros k c Hc. destruct (p_ok p); [|done]. unfold overlay.
    rewrite lookup_union, X by done. unfold no_tables. rewrite lookup_empty. by destruct (w0 k !! c).
  - intros Hok k. rewrite Hok. unfold overlay. rewrite lookup_union.
    specialize (F Hok k (elem_of_slots k) eq_refl). apply (filled_weaken _ _ _ _ _ _ _ _ _ _ (w0 k !! n)) in F.
    by destruct (p_bin p k !! n), (w0 k !! n).
Qed.

(** ** The loop over the cells *)
Definition acceptable (t : tables) (g : grid) (ic1 ic2 : list Z) (j : nat) : Prop :=
  (forall por, g_por g !! j = Some por -> 0 <= por) /\
  (forall rv, g_rv g !! j = Some rv -> 0 <= rv) /\
  forall k m, ~ missing t (g_nxyz g) ic1 ic2 j k m.

Lemma init_cells_spec t g ic1 ic2 fr cells ok msgs w0 ok' msgs' w' : NoDup (map fst cells) ->
  init_cells t g ic1 ic2 fr cells ok msgs w0 = Ret (ok', msgs', w') ->
  (ok' = true <-> ok = true /\ forall i j, (i, j) ∈ cells -> acceptable t g ic1 ic2 j) /\
  (forall q, q ∈ msgs -> q ∈ msgs') /\
  (forall q, q ∈ msgs' -> q ∈ msgs \/ exists i j, (i, j) ∈ cells /\ missing t (g_nxyz g) ic1 ic2 j q.1 q.2) /\
  (forall i j por rv k m, (i, j) ∈ cells -> g_por g !! j = Some por -> g_rv g !! j = Some rv -> 0 <= por -> 0 <= rv ->
     missing t (g_nxyz g) ic1 ic2 j k m -> (k, m) ∈ msgs') /\
  (forall k c, c ∉ map fst cells -> w' k !! c = w0 k !! c) /\
  (ok' = true -> forall i j k, (i, j) ∈ cells ->
     exists por sat rv, g_por g !! j = Some por /\ g_sat g !! j = Some sat /\ g_rv g !! j = Some rv /\
       filled t g por sat rv ic1 ic2 fr j k (w0 k !! i) (w' k !! i)).
Proof.
  revert ok msgs w0. induction cells as [|[i j] cells IH]; intros ok msgs w0 Hnd H; cbn [init_cells] in H.
  { injection H as <- <- <-.
    split; [split; [intros; split; [done|by intros ? ? ?%elem_of_nil]|naive_solver]|].
    split; [done|]. split; [naive_solver|]. split; [by intros ? ? ? ? ? ? ?%elem_of_nil|]. split; [done|].
    by intros _ ? ? ? ?%elem_of_nil. }
  cbn [map fst] in Hnd. apply NoDup_cons in Hnd as [Hi Hnd].
  destruct (rd (g_por g) j) as [por| |] eqn:E1; [|done|done].
  destruct (rd (g_rv g) j) as [rv| |] eqn:E2; [|done|done]. cbn [obind] in H. apply rd_ret in E1, E2.
  assert (Hskip : forall (Hbad : ~ (0 <= por /\ 0 <= rv)), init_cells t g ic1 ic2 fr cells false msgs w0 = Ret (ok', msgs', w') ->
    (ok' = true <-> ok = true /\ forall i' j', (i', j') ∈ (i, j) :: cells -> acceptable t g ic1 ic2 j') /\
  (forall q, q ∈ msgs -> q ∈ msgs') /\
  (forall q, q ∈ msgs' -> q ∈ msgs \/ exists i' j', (i', j') ∈ (i, j) :: cells /\ missing t (g_nxyz g) ic1 ic2 j' q.1 q.2) /\
  (forall i' j' por rv k m, (i', j') ∈ (i, j) :: cells -> g_por g !! j' = Some por -> g_rv g !! j' = Some rv -> 0 <= por -> 0 <= rv ->
     missing t (g_nxyz g) ic1 ic2 j' k m -> (k, m) ∈ msgs') /\
  (forall k c, c ∉ map fst ((i, j) :: cells) -> w' k !! c = w0 k !! c) /\
  (ok' = true -> forall i' j' k, (i', j') ∈ (i, j) :: cells ->
     exists por sat rv, g_por g !! j' = Some por /\ g_sat g !! j' = Some sat /\ g_rv g !! j' = Some rv /\
       filled t g por sat rv ic1 ic2 fr j' k (w0 k !! i') (w' k !! i'))).
  { intros Hbad H'. destruct (IH _ _ _ Hnd H') as (A & B & C & D & F & G).
    split; [|split; [done|split; [|split; [|split]]]].
    - rewrite A. split; [naive_solver|]. intros [_ K]. exfalso. apply Hbad.
      destruct (K i j ltac:(by left)) as (K1 & K2 & _). split; [by apply K1|by apply K2].
    - intros q Hq. destruct (C q Hq) as [?|(i' & j' & ? & ?)]; [by left|]. right. exists i', j'. split; [by right|done].
    - intros i' j' por' rv' k m [[= -> ->]|Hin]%elem_of_cons; [|by eapply D].
      rewrite E1, E2. intros [= ->] [= ->] P1 P2. exfalso. by apply Hbad.
    - intros k c [? ?]%not_elem_of_cons. by apply F.
    - intros Hok. apply A in Hok as [? _]. done. }
  destruct (Qc_ltb por 0) eqn:L1.
  { apply Hskip; [|done]. intros [P _]. apply Qc_ltb_true in L1. by apply Qclt_not_le in L1. }
  destruct (Qc_ltb rv 0) eqn:L2.
  { apply Hskip; [|done]. intros [_ P]. apply Qc_ltb_true in L2. by apply Qclt_not_le in L2. }
  clear Hskip. apply Qc_ltb_false in L1, L2.
  destruct (cell_init t g ic1 ic2 fr j i w0) as [[[ok1 m1] w1]| |] eqn:Ec; [|done|done].
  cbn [obind fst snd] in H.
  destruct (cell_init_spec _ _ _ _ _ _ _ _ _ _ _ Ec) as (por' & sat & rv' & P1 & P2 & P3 & O & M & N & X & F).
  rewrite E1 in P1. rewrite E2 in P3. injection P1 as <-. injection P3 as <-.
  destruct (IH _ _ _ Hnd H) as (A & B & C & D & G & K).
  assert (Hacc : acceptable t g ic1 ic2 j <-> ok1 = true).
  { rewrite O. unfold acceptable. rewrite E1, E2. split; [naive_solver|]. intros ?.
    split; [by intros ? [= <-]|]. split; [by intros ? [= <-]|done]. }
  split; [|split; [|split; [|split; [|split]]]].
  - rewrite A, andb_true_iff. split.
    + intros [[-> Hok1] K']. split; [done|]. intros i' j' [[= -> ->]|Hin]%elem_of_cons; [by apply Hacc|by eapply K'].
    + intros [-> K']. split; [split; [done|]|].
      * apply Hacc. apply (K' i j). by left.
      * intros i' j' Hin. apply (K' i' j'). by right.
  - intros q Hq. apply B. destruct ok1; [done|]. apply elem_of_app. by left.
  - intros q Hq. destruct (C q Hq) as [Hq'|(i' & j' & ? & ?)].
    + destruct ok1; [by left|]. apply elem_of_app in Hq' as [?|Hq']; [by left|].
      right. exists i, j. split; [by left|]. by apply M.
    + right. exists i', j'. split; [by right|done].
  - intros i' j' por' rv' k m [[= -> ->]|Hin]%elem_of_cons; [|by eapply D].
    intros _ _ _ _ Hmiss. apply B. destruct ok1.
    + exfalso. by apply (proj1 O eq_refl k m).
    + apply elem_of_app. right. by apply M.
  - intros k c [Hc ?]%not_elem_of_cons. rewrite G by done. by apply X.
  - intros Hok i' j' k [[= -> ->]|Hin]%elem_of_cons.
    + exists por, sat, rv. split; [done|]. split; [done|]. split; [done|].
      rewrite G by done. apply F. apply A in Hok as [Hok _]. by apply andb_true_iff in Hok as [_ ?].
    + destruct (K Hok i' j' k Hin) as (por' & sat' & rv' & Q1 & Q2 & Q3 & Q4).
      exists por', sat', rv'. split; [done|]. split; [done|]. split; [done|].
      rewrite <- (X k i'); [done|]. intros ->. apply Hi. apply elem_of_list_fmap. by exists (i, j').
Qed.

(** ** Distribution over the workers *)
Lemma elem_of_range c r : c ∈ range r <-> (r.1 <= c <= r.2)%Z.
Proof. unfold range. rewrite elem_of_seqZ. lia. Qed.
Lemma pass_cells_lookup w0 cells w k c :
  foldl (pass_cell w0) w cells k !! c =
  if decide (c ∈ cells) then (match w0 k !! c with Some e => Some e | None => w k !! c end) else w k !! c.
Proof.
  revert w. induction cells as [|i cells IH]; intros w; cbn [foldl].
  { rewrite decide_False; [done|]. by apply not_elem_of_nil. }
  rewrite IH. unfold pass_cell at 1 2. destruct (decide (c = i)) as [->|Hc].
  - rewrite (decide_True (P := i ∈ i :: cells)) by (by left).
    destruct (w0 k !! i) eqn:E; rewrite ?lookup_insert; by destruct (decide _).
  - destruct (decide (c ∈ cells)) as [Hin|Hin].
    + rewrite decide_True by (by right). destruct (w0 k !! c); [done|].
      destruct (w0 k !! i); [by rewrite lookup_insert_ne|done].
    + rewrite decide_False by (rewrite elem_of_cons; naive_solver).
      destruct (w0 k !! i); [by rewrite lookup_insert_ne|done].
Qed.
Lemma delete_cells_lookup cells w k c : cells <> [] ->
  delete_cells cells w k !! c = if decide (c ∈ cells) then None else w k !! c.
Proof.
  intros Hne.
  assert (E : forall m : gmap Z (ty k), foldr (fun i m => delete i m) m cells !! c = if decide (c ∈ cells) then None else m !! c).
  { clear. intros m. induction cells as [|i cells IH]; cbn [foldr].
    { rewrite decide_False; [done|]. by apply not_elem_of_nil. }
    destruct (decide (c = i)) as [->|Hc].
    - rewrite lookup_delete, decide_True by (by left). done.
    - rewrite lookup_delete_ne, IH by done. destruct (decide (c ∈ cells)) as [?|Hin].
      + by rewrite decide_True by (by right).
      + by rewrite decide_False by (rewrite elem_of_cons; naive_solver). }
  destruct cells as [|i cells]; [done|]. unfold delete_cells. apply E.
Qed.

Lemma distribute_spec ws rs w0 : (length ws <= length rs)%nat ->
  (forall n r, rs !! n = Some r -> (r.1 <= r.2)%Z) ->
  (forall n n' r r' c, rs !! n = Some r -> rs !! n' = Some r' -> c ∈ range r -> c ∈ range r' -> n = n') ->
  exists w0' ws', distribute w0 ws rs = Ret (w0', ws') /\ length ws' = length ws /\
    (forall n r k c, (n < length ws)%nat -> rs !! n = Some r -> c ∈ range r -> w0' k !! c = None) /\
    (forall k c, (forall n r, (n < length ws)%nat -> rs !! n = Some r -> c ∉ range r) -> w0' k !! c = w0 k !! c) /\
    (forall n r w, rs !! n = Some r -> ws !! n = Some w -> exists w', ws' !! n = Some w' /\
       forall k c, w' k !! c = if decide (c ∈ range r)
                               then (match w0 k !! c with Some e => Some e | None => w k !! c end)
                               else w k !! c).
Proof.
  revert rs w0. induction ws as [|w ws IH]; intros rs w0 Hlen Hne Hdis.
  { exists w0, []. split; [done|]. split; [done|]. split; [cbn; lia|]. split; [done|]. intros ? ? ? _ H. by rewrite lookup_nil in H. }
  destruct rs as [|r rs]; [cbn in Hlen; lia|]. cbn [distribute].
  assert (Hr : range r <> []).
  { intros E. assert (H : r.1 ∈ range r) by (apply elem_of_range; specialize (Hne 0%nat r eq_refl); lia).
    rewrite E in H. by apply elem_of_nil in H. }
  destruct (IH rs (delete_cells (range r) w0)) as (w0' & ws' & E & L & A & B & C).
  { cbn in Hlen. lia. }
  { intros n x Hx. by apply (Hne (S n) x). }
  { intros n n' x x' c Hx Hx' ? ?. by apply (inj S), (Hdis (S n) (S n') x x' c). }
  rewrite E. cbn [obind fst snd]. exists w0', (foldl (pass_cell w0) w (range r) :: ws').
  split; [done|]. split; [cbn; lia|]. split; [|split].
  - intros n x k c Hn Hx Hc. destruct n as [|n].
    + cbn in Hx. injection Hx as ->. rewrite B.
      * rewrite delete_cells_lookup by done. by rewrite decide_True.
      * intros n y Hn' Hy Hcy. specialize (Hdis 0%nat (S n) x y c eq_refl Hy Hc Hcy). lia.
    + cbn in Hx, Hn. eapply A; [|done|done]. lia.
  - intros k c Hc. rewrite B.
    + rewrite delete_cells_lookup by done. rewrite decide_False; [done|]. apply (Hc 0%nat); [cbn; lia|done].
    + intros n x Hn Hx. apply (Hc (S n)); [cbn; lia|done].
  - intros n x v Hx Hv. destruct n as [|n].
    + cbn in Hx, Hv. injection Hx as <-. injection Hv as <-. eexists. split; [done|].
      intros k c. apply pass_cells_lookup.
    + cbn in Hx, Hv. destruct (C n x v Hx Hv) as (w' & Hw' & Hk). exists w'. split; [done|].
      intros k c. rewrite Hk. case_decide as Hin; [|done].
      rewrite delete_cells_lookup by done. rewrite decide_False; [done|].
      intros Hin'. specialize (Hdis (S n) 0%nat x r c Hx eq_refl Hin Hin'). lia.
Qed.

(** ** No out-of-range access when the arrays are as long as the grid *)
Definition full_arrays (g : grid) (bm : list nat) (ic1 ic2 : list Z) (fr : list Qc) : Prop :=
  length ic1 = (7 * g_nxyz g)%nat /\ length ic2 = (7 * g_nxyz g)%nat /\ length fr = (7 * g_nxyz g)%nat /\
  (g_nxyz g <= length (g_por g))%nat /\ (g_nxyz g <= length (g_sat g))%nat /\ (g_nxyz g <= length (g_rv g))%nat /\
  (forall k, (g_units g k < 3)%nat) /\ Forall (fun j => (j < g_nxyz g)%nat) bm.
Lemma rd_in {A} (l : list A) i : (i < length l)%nat -> exists a, rd l i = Ret a.
Proof. intros [a Ha]%lookup_lt_is_Some. exists a. unfold rd. by rewrite Ha. Qed.
Lemma build_total t g por sat rv f1 n1 n2 k : (g_units g k < 3)%nat ->
  exists e, build t g por sat rv f1 n1 n2 k = Ret e.
Proof.
  intros H.
  assert (U : exists x, rd (factors por rv) (g_units g k) = Ret x).
  { apply rd_in. done. }
  destruct U as [x Hx]. destruct k; cbn [build]; rewrite ?Hx; cbn [obind]; eauto.
Qed.
Lemma blocks_total t g por sat rv ic1 ic2 fr j n ks p bm : full_arrays g bm ic1 ic2 fr -> (j < g_nxyz g)%nat ->
  exists p', blocks t g por sat rv ic1 ic2 fr j n ks p = Ret p'.
Proof.
  intros (L1 & L2 & L3 & _ & _ & _ & U & _) Hj. revert p. induction ks as [|k ks IH]; intros p; cbn [blocks]; [eauto|].
  assert (R : (row k * g_nxyz g + j < 7 * g_nxyz g)%nat).
  { assert (row k <= 6)%nat by (destruct k; cbn; lia). nia. }
  assert (B : exists p', block t g por sat rv ic1 ic2 fr j n k p = Ret p').
  { unfold block. destruct (rd_in ic1 (row k * g_nxyz g + j)) as [n1 ->]; [lia|].
    destruct (rd_in ic2 (row k * g_nxyz g + j)) as [n2 ->]; [lia|]. cbn [obind].
    destruct (_ && _ && _)%bool; [|eauto].
    destruct (rd_in fr (row k * g_nxyz g + j)) as [f1 ->]; [lia|]. cbn [obind].
    destruct (0 <=? n1)%Z; [|eauto].
    destruct (build_total t g por sat rv f1 n1 n2 k (U k)) as [e ->]. cbn [obind]. eauto. }
  destruct B as [p' ->]. cbn [obind]. apply IH.
Qed.
Lemma init_cells_total t g ic1 ic2 fr bm cells ok msgs w0 : full_arrays g bm ic1 ic2 fr ->
  Forall (fun q => (q.2 < g_nxyz g)%nat) cells ->
  exists r, init_cells t g ic1 ic2 fr cells ok msgs w0 = Ret r.
Proof.
  intros F Hc. revert ok msgs w0. induction Hc as [|[i j] cells Hj Hc IH]; intros ok msgs w0; cbn [init_cells]; [eauto|].
  cbn in Hj. pose proof F as (_ & _ & _ & P1 & P2 & P3 & _).
  destruct (rd_in (g_por g) j) as [por Ep]; [lia|]. destruct (rd_in (g_rv g) j) as [rv Er]; [lia|].
  rewrite Ep, Er. cbn [obind]. destruct (Qc_ltb por 0); [apply IH|]. destruct (Qc_ltb rv 0); [apply IH|].
  unfold cell_init. rewrite Ep, Er. cbn [obind].
  destruct (rd_in (g_sat g) j) as [sat ->]; [lia|]. cbn [obind].
  destruct (blocks_total t g por sat rv ic1 ic2 fr j i slots (Prog true [] no_tables) bm F Hj) as [p ->].
  cbn [obind]. apply IH.
Qed.
Lemma numbered_fst (bm : list nat) : map fst (zip (seqZ 0 (Z.of_nat (length bm))) bm) = seqZ 0 (Z.of_nat (length bm)).
Proof.
  change (map fst) with (fmap (M := list) (fst (A := Z) (B := nat))).
  rewrite fst_zip; [done|]. rewrite seqZ_length. lia.
Qed.
Lemma numbered_elem (bm : list nat) i j :
  (i, j) ∈ zip (seqZ 0 (Z.of_nat (length bm))) bm <-> (0 <= i)%Z /\ bm !! Z.to_nat i = Some j.
Proof.
  rewrite elem_of_list_lookup. split.
  - intros [n Hn]. apply lookup_zip_with_Some in Hn as (a & b & [= -> ->] & H1 & H2).
    apply lookup_seqZ in H1 as [-> ?]. split; [lia|]. by replace (Z.to_nat (0 + Z.of_nat n)) with n by lia.
  - intros [Hi Hj]. exists (Z.to_nat i). apply lookup_zip_with_Some. exists i, j. split; [done|]. split; [|done].
    apply lookup_seqZ. apply lookup_lt_Some in Hj. lia.
Qed.

(** ** Temperature and the like of a cell's solution *)
Lemma mix_found_pair (t : gmap Z sol) n1 x1 n2 x2 a1 a2 : t !! n1 = Some a1 -> t !! n2 = Some a2 -> (0 <= n2)%Z ->
  forall s f, (s, f) ∈ mix_found t (pair_mix n1 x1 n2 x2) ->
  (s = a1 /\ (f = x1 \/ f = x1 + x2)) \/ (s = a2 /\ f = x2).
Proof.
  intros H1 H2 Hn s f H. apply mix_found_elem in H as (n & Hn' & Hs). unfold pair_mix in Hn'.
  rewrite (proj2 (Z.leb_le 0 n2) Hn) in Hn'. cbn [mix_add] in Hn'.
  destruct (Z.eqb_spec n2 n1) as [->|Hne].
  - rewrite elem_of_cons, elem_of_nil in Hn'. destruct Hn' as [[= -> ->]|[]]. rewrite H1 in Hs. injection Hs as ->. naive_solver.
  - destruct (n2 <? n1)%Z; rewrite !elem_of_cons, elem_of_nil in Hn';
      (destruct Hn' as [[= -> ->]|[[= -> ->]|[]]]); rewrite ?H1, ?H2 in Hs; injection Hs as ->; naive_solver.
Qed.
Lemma Qcle_div_nonneg x y : 0 <= x -> 0 < y -> 0 <= x / y.
Proof.
  intros Hx Hy. unfold Qcdiv. apply Qcmult_nonneg; [done|].
  assert (Hne : y <> 0) by by apply Qclt_ne.
  destruct (Qclt_le_dec (/ y) 0) as [Hl|]; [|done]. exfalso.
  assert (E : y * / y = 1) by (field; done).
  assert (Hm : y * / y <= 0).
  { rewrite Qcmult_comm. replace 0 with (0 * y) by ring. apply Qcmult_le_compat_r; by apply Qclt_le_weak. }
  rewrite E in Hm. by apply Qcle_not_lt in Hm.
Qed.
Lemma mix_found_weight t g n1 x1 n2 x2 a1 a2 : t !! n1 = Some a1 -> t !! n2 = Some a2 -> (0 <= n2)%Z ->
  weighted g (mix_found t (pair_mix n1 x1 n2 x2)) = x1 * g a1 + x2 * g a2.
Proof.
  intros H1 H2 Hn. rewrite <- mix_amount_weighted. unfold pair_mix.
  rewrite (proj2 (Z.leb_le 0 n2) Hn), !mix_amount_add, H1, H2. cbn [mix_amount]. ring.
Qed.
Lemma build_sol_average (t : gmap Z sol) por sat rv f1 n1 n2 a1 a2 g : g ∈ intensive ->
  t !! n1 = Some a1 -> t !! n2 = Some a2 -> (0 <= n2)%Z ->
  0 <= f1 -> f1 <= 1 -> 0 < water por sat rv -> 0 < s_vol a1 -> 0 < s_vol a2 -> 0 < s_mw a1 -> 0 < s_mw a2 ->
  let x1 := f1 * water por sat rv / s_vol a1 in
  let x2 := (1 - f1) * water por sat rv / s_vol a2 in
  let e := build_sol t por sat rv f1 n1 n2 in
  0 < s_mw e /\ s_mw e * g e = x1 * s_mw a1 * g a1 + x2 * s_mw a2 * g a2.
Proof.
  intros Hg H1 H2 Hn F0 F1 HW V1 V2 M1 M2 x1 x2 e.
  assert (E : e = mix_parts (mix_found t (pair_mix n1 x1 n2 x2)) sol_zero).
  { unfold e, build_sol, sol_mix. rewrite (vol_of_eq _ _ _ H1), (vol_of_eq _ _ _ H2). unfold x1, x2, water.
    by rewrite <- !Qcmult_assoc. }
  assert (X1 : 0 <= x1).
  { apply Qcle_div_nonneg; [|done]. apply Qcmult_nonneg; [done|by apply Qclt_le_weak]. }
  assert (X2 : 0 <= x2).
  { apply Qcle_div_nonneg; [|done]. apply Qcmult_nonneg; [|by apply Qclt_le_weak].
    apply (Qcplus_le_compat (- f1) (- f1) f1 1) in F1; [|apply Qcle_refl].
    replace (- f1 + f1) with 0 in F1 by ring. by replace (1 - f1) with (- f1 + 1) by ring. }
  assert (HM : weighted s_mw (mix_found t (pair_mix n1 x1 n2 x2)) = x1 * s_mw a1 + x2 * s_mw a2)
    by by apply mix_found_weight.
  assert (V1' : s_vol a1 <> 0) by by apply Qclt_ne.
  assert (V2' : s_vol a2 <> 0) by by apply Qclt_ne.
  assert (HV : x1 * s_vol a1 + x2 * s_vol a2 = water por sat rv) by (unfold x1, x2; field; done).
  assert (Hpos : x1 <> 0 \/ x2 <> 0).
  { destruct (Qc_eq_dec x1 0) as [E1|]; [|by left]. destruct (Qc_eq_dec x2 0) as [E2|]; [|by right].
    exfalso. apply (Qclt_ne _ _ HW). rewrite <- HV, E1, E2. ring. }
  assert (HMpos : 0 < x1 * s_mw a1 + x2 * s_mw a2).
  { destruct Hpos as [N|N].
    - apply Qcplus_pos_l; [|apply Qcmult_nonneg; [done|by apply Qclt_le_weak]].
      apply Qcmult_pos; [|done]. by apply Qcle_ne_lt.
    - apply Qcplus_pos_r; [apply Qcmult_nonneg; [done|by apply Qclt_le_weak]|].
      apply Qcmult_pos; [|done]. by apply Qcle_ne_lt. }
  assert (Hmw : s_mw e = x1 * s_mw a1 + x2 * s_mw a2).
  { rewrite E, (mix_parts_extensive s_mw) by (unfold extensive; set_solver). rewrite HM. cbn. ring. }
  split; [by rewrite Hmw|].
  rewrite E. rewrite (mix_parts_intensive g _ sol_zero Hg).
  - rewrite (mix_found_weight t (fun s => s_mw s * g s) n1 x1 n2 x2 a1 a2 H1 H2 Hn). cbn [s_mw sol_zero]. ring.
  - apply Qcle_refl.
  - intros s f Hin. destruct (mix_found_pair _ _ _ _ _ _ _ H1 H2 Hn _ _ Hin) as [[-> [->| ->]]|[-> ->]];
      (split; [|done]); try done. by apply Qcplus_nonneg.
Qed.
