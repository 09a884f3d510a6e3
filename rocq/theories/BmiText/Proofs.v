(** The invariant of the announcements. *)
From Coq Require Import ZArith Ascii String.
From stdpp Require Import prelude.
From Verif.Base Require Import Result.
From Verif.BmiText Require Import Model Spec.
Open Scope Z_scope.

(** ** Bytes *)
Lemma byte_of_val z : Z.of_N (N_of_ascii (byte_of z)) = z mod 256.
Proof.
  unfold byte_of. pose proof (Z.mod_pos_bound z 256 ltac:(lia)).
  rewrite N_ascii_embedding by lia. lia.
Qed.

Lemma int_bytes_at z : int_at z (int_bytes z).
Proof.
  exists (byte_of z), (byte_of (z / 256)), (byte_of (z / 65536)), (byte_of (z / 16777216)). split; [done|].
  rewrite !byte_of_val.
  replace (z / 65536) with (z / 256 / 256) by (rewrite Z.div_div by lia; f_equal; lia).
  replace (z / 16777216) with (z / 256 / 256 / 256) by (rewrite !Z.div_div by lia; f_equal; lia).
  pose proof (Z.div_mod z 256 ltac:(lia)). pose proof (Z.mod_pos_bound z 256 ltac:(lia)).
  set (q1 := z / 256) in *. pose proof (Z.div_mod q1 256 ltac:(lia)). pose proof (Z.mod_pos_bound q1 256 ltac:(lia)).
  set (q2 := q1 / 256) in *. pose proof (Z.div_mod q2 256 ltac:(lia)). pose proof (Z.mod_pos_bound q2 256 ltac:(lia)).
  set (q3 := q2 / 256) in *. pose proof (Z.div_mod q3 256 ltac:(lia)). pose proof (Z.mod_pos_bound q3 256 ltac:(lia)).
  apply (Z.mod_unique_pos _ _ (q3 / 256)); lia.
Qed.

Lemma int_read_int_bytes z : -2147483648 <= z < 2147483648 -> int_read (int_bytes z) = z.
Proof.
  intros Hz. destruct (int_bytes_at z) as (a & b & c & d & E & V). rewrite E. unfold int_read. cbn.
  pose proof (Z.mod_pos_bound z 4294967296 ltac:(lia)).
  destruct (decide (0 <= z)).
  - rewrite Z.mod_small in V by lia. rewrite decide_False by lia. lia.
  - assert (z mod 4294967296 = z + 4294967296) as Em.
    { symmetry. apply (Z.mod_unique_pos _ _ (-1)); lia. }
    rewrite decide_True by lia. lia.
Qed.

Lemma longest_bound l s : s ∈ l -> (length s <= longest l)%nat.
Proof. unfold longest. induction 1 as [l|s t l Hs IH]; cbn [foldr]; lia. Qed.

(** Names padded to a sufficient width are laid out. *)
Lemma concat_blocks {A} w (f : A -> text) (l : list A) :
  (forall x, x ∈ l -> length (f x) = w) ->
  length (concat (map f l)) = (length l * w)%nat /\
  forall i x, l !! i = Some x -> take w (drop (i * w) (concat (map f l))) = f x.
Proof.
  induction l as [|x l IH]; intros H; cbn.
  - split; [done|]. intros i x. rewrite lookup_nil. done.
  - destruct IH as [IL IE]; [intros y Hy; apply H; set_solver|].
    pose proof (H x ltac:(set_solver)) as Hx. split.
    + rewrite app_length, IL, Hx. lia.
    + intros [|i] y Hy.
      * cbn in *. injection Hy as ->. rewrite drop_0, take_app_le by lia. by rewrite take_ge by lia.
      * cbn in Hy. replace (S i * w)%nat with (length (f x) + i * w)%nat by (rewrite Hx; lia).
        rewrite drop_app_ge by lia.
        replace (length (f x) + i * w - length (f x))%nat with (i * w)%nat by lia. by apply IE.
Qed.

Lemma padded_laid_out w names :
  (forall s, s ∈ names -> (length s <= Z.to_nat w)%nat) -> laid_out (Z.to_nat w) names (concat (map (padded w) names)).
Proof.
  intros H.
  destruct (concat_blocks (Z.to_nat w) (padded w) names) as [L E].
  { intros s Hs. unfold padded. rewrite app_length, replicate_length. specialize (H s Hs). lia. }
  split; [done|]. intros i s Hs. split; [by eapply H, elem_of_list_lookup_2|]. by rewrite (E i s Hs).
Qed.

Section Proofs.
Context {D : Type} (zero : D) (dbytes : D -> text).
Hypothesis dbytes_size : forall d, length (dbytes d) = 8%nat.

Lemma numbers_laid_out (l : list D) : numbers_at dbytes l (concat (map dbytes l)).
Proof. destruct (concat_blocks 8 dbytes l) as [L E]; [done|]. split; [done|]. intros k x Hx. by apply E. Qed.

(** ** The invariant *)
Definition int_slot (m : meta (D := D)) : Prop := m_type m = TInt /\ m_nbytes m = 4 /\ m_itemsize m = 4 /\ m_dim m = 1.
Definition sizes (v : var) (r : rm D) (m : meta (D := D)) : Prop :=
  match v with
  | VComponents => m_type m = TStrings /\ m_itemsize m = Z.of_nat (longest (r_components r)) /\
                   m_nbytes m = m_itemsize m * Z.of_nat (length (r_components r))
  | VErrorString => m_type m = TString /\ 0 <= m_nbytes m
  | VNth | VColumnCount | VCount | VRowCount | VCurrent => int_slot m
  | VOn => m_type m = TBool /\ m_nbytes m = 1 /\ m_itemsize m = 1 /\ m_dim m = 1
  | VViscosity => m_type m = TDouble /\ m_nbytes m = 8 * Z.of_nat (r_rows r) /\ m_itemsize m = 8 /\ m_dim m = Z.of_nat (r_rows r)
  | _ => True
  end.
Definition sometimes (v : var) : Prop :=
  match v with VFilePrefix | VSelectedOutput | VHeadings | VRowCount => True | _ => False end.
Definition slot_ok (v : var) (r : rm D) (m : meta (D := D)) : Prop :=
  (m_init m = true -> sizes v r m /\ ~ sometimes v) /\
  (v = VErrorString \/ v = VFilePrefix -> m_dim m = 0 \/ m_dim m = 1) /\
  (v <> VOn -> m_b m = false).
Definition inv (b : bmi D) : Prop := forall v, slot_ok v (b_rm b) (b_meta b v).

(** What the first part of a function leaves. *)
Definition described (v : var) (r : rm D) (m : meta (D := D)) : Prop :=
  match v with
  | VFilePrefix => m_type m = TString /\ m_nbytes m = size_z (r_prefix r) /\ m_itemsize m = size_z (r_prefix r)
  | VSelectedOutput =>
      m_type m = TDouble /\ m_itemsize m = 8 /\
      (0 < r_count r -> m_nbytes m = 8 * Z.of_nat (r_rows r) * r_cols r) /\ m_dim m = Z.quot (m_nbytes m) 8
  | VHeadings =>
      0 < r_count r -> m_type m = TStrings /\ m_itemsize m = heads_width r /\
                       m_nbytes m = heads_width r * Z.of_nat (length (r_heads r))
  | VRowCount => int_slot m
  | _ => sizes v r m /\ m_init m = true
  end.

Lemma quot_self n d : (if decide (n = 0) then d else Z.quot n n) = d \/ (if decide (n = 0) then d else Z.quot n n) = 1.
Proof using. case_decide; [by left|right; by apply Z.quot_same]. Qed.

Lemma info_ok v r m : slot_ok v r m -> slot_ok v r (info v r m) /\ described v r (info v r m).
Proof using.
  intros (Hi & Hd & Hb). destruct (m_init m) eqn:Ei.
  { destruct (Hi eq_refl) as [Hs Hn].
    destruct v; try (exfalso; apply Hn; exact I); cbn; rewrite Ei; (split; [split; [|split]; intros; auto|]); cbn; auto. }
  clear Hi. destruct v; cbn; rewrite ?Ei.
  - split; [split; [|split]|]; cbn; intros; [|naive_solver|by apply Hb|]; (split; [split_and!; done|]); auto.
  - split; [split; [|split]|]; cbn; intros; [split; [split; [done|unfold size_z; lia]|auto]| |by apply Hb|split; [split; [done|unfold size_z; lia]|auto]].
    destruct (quot_self (size_z (r_errors r)) (m_dim m)) as [-> | ->]; auto.
  - split; [split; [|split]|]; cbn; intros; [congruence| |by apply Hb|done].
    destruct (quot_self (size_z (r_prefix r)) (m_dim m)) as [-> | ->]; auto.
  - split; [split; [|split]|]; cbn; intros; [split; [split_and!; done|auto]|naive_solver|by apply Hb|split; [split_and!; done|auto]].
  - case_decide; (split; [split; [|split]|]); cbn; intros; try congruence; try naive_solver; try (by apply Hb); split_and!; done.
  - split; [split; [|split]|]; cbn; intros; [split; [split_and!; done|auto]|naive_solver|by apply Hb|split; [split_and!; done|auto]].
  - split; [split; [|split]|]; cbn; intros; [split; [split_and!; done|auto]|naive_solver|by apply Hb|split; [split_and!; done|auto]].
  - case_decide; (split; [split; [|split]|]); cbn; intros; try congruence; try naive_solver; try (by apply Hb); split_and!; done.
  - split; [split; [|split]|]; cbn; intros; [congruence|naive_solver|by apply Hb|split_and!; done].
  - split; [split; [|split]|]; cbn; intros; [split; [split_and!; done|auto]|naive_solver|by apply Hb|split; [split_and!; done|auto]].
  - split; [split; [|split]|]; cbn; intros; [split; [split_and!; done|auto]|naive_solver|congruence|split; [split_and!; done|auto]].
  - assert (Z.quot (8 * Z.of_nat (r_rows r)) 8 = Z.of_nat (r_rows r)) as Eq by (rewrite Z.mul_comm; apply Z.quot_mul; lia).
    split; [split; [|split]|]; cbn [m_init]; intros; [split; [split_and!; done|auto]|naive_solver|by apply Hb|split; [split_and!; done|auto]].
Qed.

Lemma info_idem v r m : described v r m -> m_init m = true -> info v r m = m \/ v = VFilePrefix.
Proof using. intros _ Hi. destruct v; cbn; rewrite ?Hi; auto. Qed.

(** The parts of the module the invariant looks at. *)
Definition same_sizes (r r' : rm D) : Prop := r_components r = r_components r' /\ r_rows r = r_rows r'.
Lemma slot_ok_same v r r' m : same_sizes r r' -> slot_ok v r m -> slot_ok v r' m.
Proof using.
  intros [Hc Hr] (Hi & Hd & Hb). split; [|split]; [|done|done]. intros H. destruct (Hi H) as [Hs Hn]. split; [|done].
  destruct v; cbn in *; rewrite <-?Hc, <-?Hr; done.
Qed.

Lemma act_ok v t r m x r' m' x' :
  slot_ok v r m -> act v t r m x = Some (r', m', x') -> same_sizes r r' /\ slot_ok v r m'.
Proof using.
  intros (Hi & Hd & Hb) H. destruct t, v; cbn in H; try done; injection H as <- <- <-; (split; [split; reflexivity|]).
  all: try (split; [exact Hi|split; [exact Hd|exact Hb]]).
  all: try (split; [exact Hi|split; [exact Hd|congruence]]).
  split; [|split; [|exact Hb]].
  - intros Hm. destruct (Hi Hm) as [_ []]. exact I.
  - intros _. cbn. destruct (quot_self (size_z (x_string x)) (m_dim m)) as [-> | ->]; auto.
Qed.

Lemma var_fn_inv v t b : inv b -> inv (snd (var_fn zero v t b)) /\ same_sizes (b_rm b) (b_rm (snd (var_fn zero v t b))).
Proof using.
  intros H. unfold var_fn. destruct (info_ok v (b_rm b) (b_meta b v) (H v)) as [Hok _].
  destruct (act v t (b_rm b) _ _) as [[[r' m'] x']|] eqn:E; cbn.
  - destruct (act_ok _ _ _ _ _ _ _ _ Hok E) as [Hs Hm]. split; [|done].
    intros w. cbn. destruct (decide (w = v)) as [->|]; eapply slot_ok_same; eauto.
  - split; [|split; reflexivity]. intros w. cbn. destruct (decide (w = v)) as [->|]; auto.
Qed.

Lemma ready_inv v b : inv b -> inv (ready zero v b) /\ same_sizes (b_rm b) (b_rm (ready zero v b)).
Proof using.
  intros H. unfold ready. destruct (m_init _); [split; [done|split; reflexivity]|]. by apply var_fn_inv.
Qed.

(** [Info] changes nothing in the module. *)
Lemma ready_rm v b : b_rm (ready zero v b) = b_rm b.
Proof using. unfold ready. by destruct (m_init _). Qed.

Lemma ready_meta v b :
  inv b -> described v (b_rm b) (b_meta (ready zero v b) v) /\ b_meta (ready zero v b) v = info v (b_rm b) (b_meta b v).
Proof using.
  intros H. destruct (info_ok v (b_rm b) (b_meta b v) (H v)) as [Hok Hde]. unfold ready.
  destruct (m_init (b_meta b v)) eqn:Ei.
  - destruct (H v) as (Hi & _ & _). destruct (Hi Ei) as [_ Hn].
    assert (info v (b_rm b) (b_meta b v) = b_meta b v) as E.
    { destruct v; cbn; rewrite ?Ei; try done; exfalso; by apply Hn. }
    rewrite E in Hde |- *. done.
  - unfold var_fn. cbn. rewrite decide_True by done. done.
Qed.

(** Making a variable uninitialised. *)
Lemma renewed_inv v b :
  slot_ok v (b_rm b) (set_init false (b_meta b v)) -> (forall w, w <> v -> slot_ok w (b_rm b) (b_meta b w)) ->
  inv (renewed zero v b) /\ b_rm (renewed zero v b) = b_rm b.
Proof using.
  intros Hv Hw. split; [|reflexivity].
  apply var_fn_inv. intros w. cbn. destruct (decide (w = v)) as [->|]; auto.
Qed.

(** The part of the invariant that does not depend on the module. *)
Definition loose (v : var) (m : meta (D := D)) : Prop :=
  (v = VErrorString \/ v = VFilePrefix -> m_dim m = 0 \/ m_dim m = 1) /\ (v <> VOn -> m_b m = false) /\
  (m_init m = true -> ~ sometimes v).
Lemma loose_slot v r m : loose v m -> slot_ok v r (set_init false m).
Proof using. intros (Hd & Hb & _). split; [|split]; cbn; [done|done|done]. Qed.
Lemma slot_loose v r m : slot_ok v r m -> loose v m.
Proof using. intros (Hi & Hd & Hb). split; [done|]. split; [done|]. intros H. by destruct (Hi H). Qed.

Lemma find_components_inv r b : (forall v, loose v (b_meta b v)) -> inv (find_components zero r b) /\ b_rm (find_components zero r b) = r.
Proof using.
  clear dbytes_size dbytes. intros H. unfold find_components.
  assert (forall l b', (forall v, loose v (b_meta b' v)) -> (forall v, v ∉ l -> slot_ok v (b_rm b') (b_meta b' v)) -> NoDup l ->
            inv (foldl (fun b v => renewed zero v b) b' l) /\ b_rm (foldl (fun b v => renewed zero v b) b' l) = b_rm b') as G.
  { induction l as [|v l IH]; intros b' Hl Ho Hn; cbn [foldl].
    - split; [|done]. intros v. apply Ho. set_solver.
    - apply NoDup_cons in Hn as [Hv Hn].
      assert (b_rm (renewed zero v b') = b_rm b') as Er by reflexivity.
      assert (forall w, w <> v -> b_meta (renewed zero v b') w = b_meta b' w) as Eo.
      { intros w Hw. unfold renewed, var_fn. cbn. by rewrite !decide_False by done. }
      assert (slot_ok v (b_rm b') (b_meta (renewed zero v b') v)) as Hok.
      { unfold renewed, var_fn. cbn. rewrite !decide_True by done. apply info_ok. apply loose_slot, Hl. }
      destruct (IH (renewed zero v b')) as [I1 I2]; [| |done|].
      + intros w. destruct (decide (w = v)) as [->|Hw]; [by eapply slot_loose|]. rewrite Eo by done. apply Hl.
      + intros w Hw. rewrite Er. destruct (decide (w = v)) as [->|Hwv]; [done|]. rewrite Eo by done. apply Ho. set_solver.
      + split; [done|]. by rewrite I2. }
  destruct (G all_vars (Bmi r (b_meta b) (b_ex b))) as [G1 G2].
  - done.
  - intros v Hv. exfalso. apply Hv. destruct v; apply (bool_decide_unpack _); vm_compute; exact I.
  - apply (bool_decide_unpack _). vm_compute. exact I.
  - by rewrite G2.
Qed.

Lemma with_ex_inv f b : inv b -> inv (with_ex f b).
Proof using. done. Qed.

Lemma used_inv b : used zero b -> inv b.
Proof using.
  induction 1 as [r|o b Hu IH Ho].
  - intros v. split; [done|]. split; [by left|done].
  - destruct o as [r|r|v|v|t v|n v|s v]; cbn [do_op].
    + destruct Ho as [Hc Hr]. intros v. eapply slot_ok_same; [|apply IH]. by split.
    + apply find_components_inv. intros v. eapply slot_loose, IH.
    + by apply ready_inv.
    + apply var_fn_inv. by apply ready_inv.
    + apply var_fn_inv, with_ex_inv. by apply ready_inv.
    + apply var_fn_inv, with_ex_inv. by apply ready_inv.
    + apply var_fn_inv, with_ex_inv. by apply ready_inv.
Qed.

(** ** Fetching *)
Lemma fetch_eq v b :
  inv b -> forall m x, act v GetVar (b_rm b) (info v (b_rm b) (b_meta (ready zero v b) v))
                         (info_ex zero v (b_rm b) (b_meta (ready zero v b) v) (b_ex (ready zero v b))) = Some (b_rm b, m, x) ->
  exists b1, fetch zero v b = (true, b1) /\ b_rm b1 = b_rm b /\ b_meta b1 v = m /\
             b_ex b1 = Exch m (x_string x) (x_doubles x) (x_strings x).
Proof using.
  intros H m x E. unfold fetch, var_fn. rewrite ready_rm, E. eexists. split; [done|]. cbn.
  by rewrite decide_True by done.
Qed.

Lemma info_again v b : inv b -> described v (b_rm b) (info v (b_rm b) (b_meta (ready zero v b) v)).
Proof using.
  intros H. destruct (ready_inv v b H) as [H1 _]. rewrite <-(ready_rm v b) at 1. rewrite <-(ready_rm v b) at 1.
  apply info_ok, H1.
Qed.
End Proofs.
