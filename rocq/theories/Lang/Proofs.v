From Coq Require Import ZArith Ascii String Lia.
From stdpp Require Import prelude strings.
From Verif.Base Require Import Result.
From Verif.Find Require Import Model.
From Verif.Lang Require Import Model Spec.
Open Scope list_scope.

Lemma cstr_no_nul s : NUL ∉ cstr s.
Proof.
  induction s as [|c s IH]; simpl; [by intros ?%elem_of_nil|]. case_decide; [by intros ?%elem_of_nil|].
  intros [E|H']%elem_of_cons; [by apply H|done].
Qed.
Lemma cstr_id s : NUL ∉ s -> cstr s = s.
Proof.
  induction s as [|c s IH]; simpl; intros H; [done|]. rewrite decide_False.
  - f_equal. apply IH. intros H'. apply H. by right.
  - intros ->. apply H. left.
Qed.

Lemma store_ok buf cs : (length cs <= length buf)%nat ->
  store buf cs = Ret (cs ++ drop (length cs) buf).
Proof. intros H. unfold store. by rewrite decide_True. Qed.

Lemma strncpy_ok buf src n : (0 <= n <= Z.of_nat (length buf))%Z -> (n < 2 ^ 64)%Z ->
  strncpy buf src n = Ret (take (Z.to_nat n) src ++ replicate (Z.to_nat n - length src) NUL ++ drop (Z.to_nat n) buf).
Proof.
  intros H Hn. unfold strncpy. rewrite Z.mod_small by lia. rewrite decide_True by lia.
  assert (length (take (Z.to_nat n) src ++ replicate (Z.to_nat n - length src) NUL) = Z.to_nat n) as Hl.
  { rewrite app_length, take_length, replicate_length. lia. }
  rewrite store_ok; rewrite Hl; [by rewrite (assoc_L (++))|lia].
Qed.
Lemma strncpy_ub buf src n : (n < 0)%Z -> (-2 ^ 31 <= n)%Z -> (Z.of_nat (length buf) < 2 ^ 63)%Z -> strncpy buf src n = UB.
Proof.
  intros H1 H2 H3. unfold strncpy. rewrite decide_False; [done|].
  replace (n mod 2 ^ 64)%Z with (n + 2 ^ 64)%Z.
  - lia.
  - rewrite <- (Z.mod_small (n + 2 ^ 64) (2 ^ 64)) by lia. rewrite <- (Z_mod_plus_full n 1 (2 ^ 64)). f_equal; lia.
Qed.

Lemma strncpy_fits buf src n : (Z.of_nat (length src) < n <= Z.of_nat (length buf))%Z -> (n < 2 ^ 64)%Z -> NUL ∉ src ->
  exists b, strncpy buf src n = Ret b /\ c_reads b src /\ length b = length buf
    /\ drop (Z.to_nat n) b = drop (Z.to_nat n) buf.
Proof.
  intros H Hn Hs. rewrite strncpy_ok by lia. eexists; split; [done|].
  rewrite take_ge by lia. split_and!.
  - exists (replicate (Z.to_nat n - length src - 1) NUL ++ drop (Z.to_nat n) buf). split; [|done].
    destruct (Z.to_nat n - length src) as [|k] eqn:E; [lia|]. simpl. by rewrite Nat.sub_0_r.
  - rewrite !app_length, replicate_length, drop_length. lia.
  - rewrite (assoc_L (++)). rewrite drop_app_alt; [done|]. rewrite app_length, replicate_length. lia.
Qed.
Lemma strncpy_long buf src n : (0 <= n <= Z.of_nat (length src))%Z -> (n <= Z.of_nat (length buf))%Z -> (n < 2 ^ 64)%Z -> NUL ∉ src ->
  exists b, strncpy buf src n = Ret b /\ take (Z.to_nat n) b = take (Z.to_nat n) src
    /\ c_unterminated (take (Z.to_nat n) b) /\ drop (Z.to_nat n) b = drop (Z.to_nat n) buf.
Proof.
  intros H Hb Hn Hs. rewrite strncpy_ok by lia. eexists; split; [done|].
  replace (Z.to_nat n - length src)%nat with 0%nat by lia. simpl.
  assert (length (take (Z.to_nat n) src) = Z.to_nat n) as Hl by (rewrite take_length; lia).
  rewrite take_app_alt, drop_app_alt by done. split_and!; [done| |done].
  unfold c_unterminated. intros Hin. apply Hs. apply elem_of_list_lookup in Hin as [i Hi].
  apply lookup_take_Some in Hi as [Hi _]. by apply elem_of_list_lookup_2 in Hi.
Qed.

(** ** The padded copies *)

Lemma c_pad_spec buf src len : (0 < len <= Z.of_nat (length buf))%Z -> (len < 2 ^ 64)%Z -> NUL ∉ src ->
  exists b, c_padstring buf src len = Ret (if (Z.of_nat (length src) <? len - 1)%Z then IRM_OK else IRM_INVALIDARG, b)
    /\ c_reads b (take (Z.to_nat (len - 1)) src) /\ length b = length buf
    /\ drop (Z.to_nat len) b = drop (Z.to_nat len) buf.
Proof.
  intros H Hn Hs. unfold c_padstring. rewrite decide_False by lia. rewrite Z.mod_small by lia.
  assert (forall k, NUL ∉ take k src) as Ht.
  { intros k [i Hi]%elem_of_list_lookup. apply lookup_take_Some in Hi as [Hi _]. by apply elem_of_list_lookup_2 in Hi. }
  assert (forall t, (length t < Z.to_nat len)%nat -> NUL ∉ t -> exists b, store buf (t ++ [NUL]) = Ret b
    /\ c_reads b t /\ length b = length buf /\ drop (Z.to_nat len) b = drop (Z.to_nat len) buf) as Hst.
  { intros t Hl Hnt. rewrite store_ok by (rewrite app_length; simpl; lia). eexists; split; [done|]. split_and!.
    - exists (drop (length (t ++ [NUL])) buf). split; [|done]. by rewrite <- (assoc_L (++)).
    - rewrite !app_length, drop_length, ?app_length. simpl. lia.
    - rewrite drop_app_ge by (rewrite app_length; simpl; lia). rewrite drop_drop. f_equal. rewrite app_length; simpl; lia. }
  case_match eqn:E.
  - apply Z.ltb_lt in E. rewrite take_ge by lia. destruct (Hst src) as (b & -> & Hb); [lia|done|]. by exists b.
  - apply Z.ltb_ge in E. destruct (Hst (take (Z.to_nat (len - 1)) src)) as (b & -> & Hb); [rewrite take_length; lia|done|]. by exists b.
Qed.

Lemma f_pad_spec buf src len : (0 <= len <= Z.of_nat (length buf))%Z -> (len < 2 ^ 32)%Z ->
  f_padstring buf src len = Ret (take (Z.to_nat len) src ++ replicate (Z.to_nat len - length src) blank ++ drop (Z.to_nat len) buf).
Proof.
  intros H Hn. unfold f_padstring. rewrite Z.mod_small by lia. rewrite decide_True by lia.
  assert (length (take (Z.to_nat len) src ++ replicate (Z.to_nat len - length src) blank) = Z.to_nat len) as Hl.
  { rewrite app_length, take_length, replicate_length. lia. }
  rewrite store_ok; rewrite Hl; [by rewrite (assoc_L (++))|lia].
Qed.

Lemma trim_blanks s k : trim (s ++ replicate k blank) = trim s.
Proof.
  induction s as [|c s IH]; simpl; [|by rewrite IH].
  induction k as [|k IH]; simpl; [done|]. by rewrite IH.
Qed.

(** ** Getters *)

Lemma counts_agree {D} g (l : lists D string) : count_of g l = length (names_of g l).
Proof. destruct g; simpl; rewrite ?map_length; done. Qed.

Lemma name_at_in v num : (0 <= num < Z.of_nat (length v))%Z ->
  exists s, v !! Z.to_nat num = Some s /\ name_at v num = Ret (cstr (list_ascii_of_string s)).
Proof.
  intros H. unfold name_at. destruct (v !! Z.to_nat num) as [s|] eqn:E; [by exists s|].
  apply lookup_ge_None in E. lia.
Qed.
Lemma name_at_out v num : (Z.of_nat (length v) <= num)%Z -> name_at v num = UB.
Proof. intros H. unfold name_at. rewrite lookup_ge_None_2 by lia. done. Qed.

(** ** Packed names *)

Lemma names_size_ge (v : list text) : forall m (s : text), s ∈ v \/ (length s <= m)%nat ->
  (length s <= fold_left (fun size s => if decide (size < length s)%nat then length s else size) v m)%nat.
Proof.
  induction v as [|t v IH]; intros m s H; simpl.
  - destruct H as [H|H]; [by apply elem_of_nil in H|done].
  - apply IH. destruct H as [[->|H]%elem_of_cons|H]; [right; case_decide; lia|by left|right; case_decide; lia].
Qed.
Lemma packed_length w (v : list text) : (forall s, s ∈ v -> (length s <= w)%nat) ->
  length (concat (map (setw_left w) v)) = (length v * w)%nat.
Proof.
  induction v as [|s v IH]; intros H; simpl; [done|]. rewrite app_length, IH.
  - unfold setw_left. rewrite app_length, replicate_length. specialize (H s ltac:(left)). lia.
  - intros t Ht. apply H. by right.
Qed.
Lemma packed_record w (v : list text) rest : (forall s, s ∈ v -> (length s <= w)%nat) ->
  forall i s, v !! i = Some s -> record w i (concat (map (setw_left w) v) ++ rest) = setw_left w s.
Proof.
  intros H. assert (forall s, s ∈ v -> length (setw_left w s) = w) as Hw.
  { intros s Hs. unfold setw_left. rewrite app_length, replicate_length. specialize (H s Hs). lia. }
  clear H. induction v as [|t v IH]; intros i s Hi; [done|]. simpl map. simpl concat. rewrite <- (assoc_L (++)).
  specialize (IH (fun s Hs => Hw s (elem_of_list_further _ _ _ Hs))).
  pose proof (Hw t ltac:(left)) as Ht. unfold record. destruct i as [|i].
  - injection Hi as ->. simpl. rewrite drop_0. by rewrite take_app_alt.
  - simpl in Hi. rewrite <- (IH i s Hi). unfold record. f_equal.
    rewrite drop_app_ge by (rewrite Ht; simpl; lia). f_equal. rewrite Ht. simpl. lia.
Qed.
