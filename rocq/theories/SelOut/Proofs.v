(** Proofs about selected-output tables. *)
From Coq Require Import String.
From stdpp Require Import prelude strings gmap.
From Verif.Base Require Import Result.
From Verif.SelOut Require Import Model Spec.

Arguments latest : simpl never.
Section Proofs.
Context {D : Type}.
Notation var := (var D).
Notation table := (table D).
Notation log := (log D).

(** The column of heading [k]. *)
Definition column (k : string) (l : log) : list var :=
  map (latest k) (l_done l) ++ (if decide (k ∈ (l_cur l).*1) then [latest k (l_cur l)] else []).

Record inv (t : table) (l : log) : Prop := Inv {
  inv_rows : t_rows t = length (l_done l);
  inv_head : t_head t = l_heads l;
  inv_nodup : NoDup (l_heads l);
  inv_map : forall k c, t_map t !! k = Some c <-> l_heads l !! c = Some k;
  inv_size : size (t_map t) = length (l_heads l);
  inv_cols : t_cols t = map (fun k => column k l) (l_heads l);
  inv_done : forall row p, row ∈ l_done l -> p ∈ row -> p.1 ∈ l_heads l;
  inv_cur : forall p, p ∈ l_cur l -> p.1 ∈ l_heads l }.

Lemma inv_new : inv new_table (Log [] [] []).
Proof.
  split; try done; try (intros; set_solver).
  - constructor.
Qed.

Lemma latest_app k (row : list (string * var)) p :
  latest k (row ++ [p]) = if decide (p.1 = k) then p.2 else latest k row.
Proof. unfold latest. by rewrite foldl_app. Qed.

Lemma latest_absent k (row : list (string * var)) : k ∉ row.*1 -> latest k row = VEmpty.
Proof.
  induction row as [|p row IH] using rev_ind; [done|].
  rewrite fmap_app, elem_of_app, latest_app. intros H.
  rewrite decide_False by (intros <-; apply H; right; set_solver). apply IH. tauto.
Qed.

Lemma note_elem k hs : k ∈ note k hs.
Proof. unfold note. case_decide; set_solver. Qed.
Lemma note_sub k k' hs : k' ∈ hs -> k' ∈ note k hs.
Proof. unfold note. case_decide; set_solver. Qed.

Lemma snoc_key (k : string) (v : var) l : k ∈ (l ++ [(k, v)]).*1.
Proof. rewrite fmap_app. apply elem_of_app. right. cbn. apply elem_of_list_singleton. done. Qed.

Lemma column_length k l :
  length (column k l) = length (l_done l) + (if decide (k ∈ (l_cur l).*1) then 1 else 0).
Proof. unfold column. rewrite app_length, map_length. by case_decide. Qed.

Lemma push_inv t l k v :
  inv t l -> exists t', push k v t = Ret t' /\ inv t' (log_event l (Punch k v)).
Proof.
  intros [Hr Hh Hn Hm Hs Hc Hd Hu]. unfold push. cbn [log_event].
  destruct (t_map t !! k) as [c|] eqn:E.
  - assert (Ec := proj1 (Hm _ _) E).
    assert (Hin : k ∈ l_heads l) by (eapply elem_of_list_lookup_2; eauto).
    assert (Hnote : note k (l_heads l) = l_heads l) by (unfold note; by rewrite decide_True).
    rewrite Hnote. rewrite Hc, list_lookup_fmap, Ec. cbn [fmap option_fmap option_map].
    assert (Hcols : forall col', col' = column k (Log (l_heads l) (l_done l) (l_cur l ++ [(k, v)])) ->
      <[c:=col']> (map (fun k0 => column k0 l) (l_heads l))
      = map (fun k0 => column k0 (Log (l_heads l) (l_done l) (l_cur l ++ [(k, v)]))) (l_heads l)).
    { intros col' ->. apply list_eq. intros i.
      destruct (decide (i = c)) as [->|Hne].
      - rewrite list_lookup_insert by (rewrite map_length; by eapply lookup_lt_Some).
        by rewrite list_lookup_fmap, Ec.
      - rewrite list_lookup_insert_ne by done. rewrite !list_lookup_fmap.
        destruct (l_heads l !! i) as [k'|] eqn:E'; [|done]. cbn. f_equal. unfold column. cbn [l_done l_cur].
        assert (k <> k') by (intros ->; apply Hne; eapply NoDup_lookup; eauto).
        f_equal. rewrite fmap_app, latest_app. cbn. rewrite (decide_False (P := k = k')) by done.
        destruct (decide (k' ∈ (l_cur l).*1)).
        + by rewrite decide_True by set_solver.
        + by rewrite decide_False by set_solver. }
    pose proof (column_length k l) as Hlen.
    destruct (decide (k ∈ (l_cur l).*1)) as [Hk|Hk].
    + rewrite decide_False by lia. rewrite decide_True by lia.
      eexists. split; [done|]. split; cbn; try done.
      * apply Hcols. unfold column. cbn [l_done l_cur]. rewrite decide_True by done.
        rewrite decide_True by apply snoc_key. rewrite Hr.
        rewrite <- (map_length (latest k) (l_done l)) at 1.
        rewrite <- (Nat.add_0_r (length (map (latest k) (l_done l)))), insert_app_r. cbn.
        f_equal. f_equal. rewrite latest_app. cbn. by rewrite decide_True.
      * intros p. rewrite elem_of_app, elem_of_list_singleton. intros [?| ->]; [by apply Hu|done].
    + rewrite decide_True by lia.
      eexists. split; [done|]. split; cbn; try done.
      * apply Hcols. unfold column. cbn [l_done l_cur]. rewrite decide_False by done.
        rewrite app_nil_r. f_equal. rewrite decide_True by apply snoc_key. f_equal.
        rewrite latest_app. cbn. by rewrite decide_True.
      * intros p. rewrite elem_of_app, elem_of_list_singleton. intros [?| ->]; [by apply Hu|done].
  - assert (Hk : k ∉ l_heads l).
    { intros [c Hcc]%elem_of_list_lookup. apply Hm in Hcc. congruence. }
    assert (Hnote : note k (l_heads l) = l_heads l ++ [k]) by (unfold note; by rewrite decide_False).
    assert (Hkc : k ∉ (l_cur l).*1).
    { intros [p [-> Hp]]%elem_of_list_fmap. auto. }
    eexists. split; [done|]. rewrite Hnote. split; cbn; try done.
    + by rewrite Hh.
    + apply NoDup_app. split_and!; [done| |apply NoDup_singleton]. set_solver.
    + intros k' c'. destruct (decide (k' = k)) as [->|Hne].
      * rewrite lookup_insert, Hs. split.
        -- intros [= <-]. by rewrite list_lookup_middle.
        -- intros Hx. f_equal. destruct (decide (c' < length (l_heads l))).
           ++ rewrite lookup_app_l in Hx by done. apply elem_of_list_lookup_2 in Hx. done.
           ++ apply lookup_lt_Some in Hx. rewrite app_length in Hx. cbn in Hx. lia.
      * rewrite lookup_insert_ne by done. rewrite Hm. split.
        -- intros. by apply lookup_app_l_Some.
        -- intros [?|[? Hx]]%lookup_app_Some; [done|].
           apply list_lookup_singleton_Some in Hx. naive_solver.
    + rewrite map_size_insert_None by done. rewrite Hs, app_length. cbn. lia.
    + rewrite Hc, map_app. cbn. f_equal.
      * apply map_ext_in. intros k' Hk'%elem_of_list_In. unfold column. cbn [l_done l_cur]. f_equal.
        assert (k' <> k) by (intros ->; done).
        rewrite fmap_app, latest_app. cbn. rewrite (decide_False (P := k = k')) by congruence.
        destruct (decide (k' ∈ (l_cur l).*1)).
        -- by rewrite decide_True by set_solver.
        -- by rewrite decide_False by set_solver.
      * f_equal. unfold column. cbn [l_done l_cur]. rewrite decide_True by apply snoc_key.
        rewrite latest_app. cbn. rewrite decide_True by done. f_equal. rewrite Hr.
        rewrite <- (map_length (latest k) (l_done l)). apply replicate_as_elem_of. split; [done|].
        intros x [row [-> Hrow]]%elem_of_list_fmap. apply latest_absent.
        intros [p [-> Hp]]%elem_of_list_fmap. eauto.
    + intros row p Hrow Hp. apply elem_of_app. left. eauto.
    + intros p. rewrite elem_of_app, elem_of_list_singleton.
      intros [?| ->]; apply elem_of_app; [left; by apply Hu|right; set_solver].
Qed.

Lemma end_inv t l : inv t l -> inv (end_row t) (log_event l End).
Proof.
  intros Hinv. pose proof Hinv as [Hr Hh Hn Hm Hs Hc Hd Hu]. unfold end_row, col_count. cbn [log_event].
  rewrite Hh. case_decide as Hx.
  - apply nil_length_inv in Hx. rewrite decide_True by done. done.
  - rewrite decide_False by (intros E; rewrite E in Hx; done).
    split; cbn; try done.
    + rewrite app_length, Hr. cbn. lia.
    + rewrite Hc. rewrite take_ge, drop_ge, app_nil_r by (rewrite map_length; lia).
      rewrite map_map. apply map_ext. intros k. unfold fill_to, column. cbn [l_done l_cur fmap list_fmap].
      rewrite (decide_False (P := k ∈ [])) by set_solver. rewrite app_nil_r, map_app. cbn.
      rewrite !app_length, map_length, Hr, <- app_assoc. f_equal.
      case_decide as Hk; cbn [length].
      * replace (S (length (l_done l)) - (length (l_done l) + 1)) with 0 by lia. done.
      * replace (S (length (l_done l)) - (length (l_done l) + 0)) with 1 by lia. cbn.
        by rewrite latest_absent.
    + intros row p. rewrite elem_of_app, elem_of_list_singleton. intros [?| ->]; eauto.
    + intros p Hp. set_solver.
Qed.

Lemma events_inv es : forall t l, inv t l ->
  exists t', do_events es t = Ret t' /\ inv t' (foldl log_event l es).
Proof.
  induction es as [|e es IH]; intros t l H; cbn.
  - eauto.
  - destruct e as [k v|]; cbn.
    + destruct (push_inv t l k v H) as (t1 & -> & H1). cbn. apply IH. done.
    + apply IH. by apply end_inv.
Qed.

Lemma made_inv es (t : table) : made es t -> inv t (log_of es).
Proof.
  unfold made. intros H. destruct (events_inv es _ _ inv_new) as (t' & E & Hi).
  rewrite E in H. injection H as <-. done.
Qed.
Lemma made_ex es : exists t : table, made es t /\ inv t (log_of es).
Proof. destruct (events_inv es _ _ inv_new) as (t' & E & Hi). eauto. Qed.

Lemma do_events_app es1 es2 (t : table) :
  do_events (es1 ++ es2) t = obind (do_events es1 t) (do_events es2).
Proof.
  revert t. induction es1 as [|e es IH]; intros t; cbn; [done|].
  destruct (do_event e t); cbn; auto.
Qed.
Lemma made_app es es' (t t' : table) : made es t -> do_events es' t = Ret t' -> made (es ++ es') t'.
Proof. unfold made. intros H1 H2. by rewrite do_events_app, H1. Qed.

(** ** Looking at a table *)
Lemma get_cell t l r c k :
  inv t l -> r < length (l_done l) -> l_heads l !! c = Some k ->
  exists row, l_done l !! r = Some row /\
    get t (Z.of_nat r + 1) (Z.of_nat c) = Ret (VR_OK, latest k row).
Proof.
  intros [Hr Hh Hn Hm Hs Hc Hd Hu] Hlt Hk.
  destruct (lookup_lt_is_Some_2 (l_done l) r) as [row Hrow]; [done|]. exists row. split; [done|].
  assert (c < length (l_heads l)) by (by eapply lookup_lt_Some).
  unfold get, row_count, col_count. rewrite Hh, Hr.
  rewrite (decide_False (P := length (l_heads l) = 0)) by lia.
  rewrite decide_False by lia. rewrite decide_False by lia. rewrite decide_False by lia.
  rewrite Nat2Z.id, Hc, list_lookup_fmap, Hk. cbn.
  replace (Z.to_nat (Z.of_nat r + 1 - 1)) with r by lia.
  unfold column. rewrite lookup_app_l by (by rewrite map_length).
  by rewrite list_lookup_fmap, Hrow.
Qed.

Lemma get_head t l c k :
  inv t l -> l_heads l !! c = Some k -> get t 0 (Z.of_nat c) = Ret (VR_OK, VStr k).
Proof.
  intros [Hr Hh Hn Hm Hs Hc Hd Hu] Hk.
  assert (c < length (l_heads l)) by (by eapply lookup_lt_Some).
  unfold get, row_count, col_count. rewrite Hh, Hr.
  rewrite (decide_False (P := length (l_heads l) = 0)) by lia.
  rewrite decide_False by lia. rewrite decide_False by lia. rewrite decide_True by lia.
  by rewrite Nat2Z.id, Hk.
Qed.

Lemma shows_latest t l r row k :
  inv t l -> l_done l !! r = Some row -> k ∈ l_heads l -> shows t r k (latest k row).
Proof.
  intros H Hr [c Hc]%elem_of_list_lookup.
  destruct (get_cell t l r c k H) as (row' & E1 & E2); [by eapply lookup_lt_Some|done|].
  exists c. split; [by rewrite (inv_head _ _ H)|]. assert (row = row') by congruence. by subst.
Qed.
Lemma shows_inj t l r k v v' : inv t l -> shows t r k v -> shows t r k v' -> v = v'.
Proof.
  intros H (c & H1 & H2) (c' & H3 & H4). rewrite (inv_head _ _ H) in H1, H3.
  assert (c = c') by (eapply NoDup_lookup; [apply (inv_nodup _ _ H)|done..]). subst. congruence.
Qed.

(** ** The transfer encoding *)
Fixpoint longs_of (vs : list var) : list Z :=
  match vs with
  | [] => []
  | VErr e :: l => e :: longs_of l
  | VLong z :: l => z :: longs_of l
  | VStr s :: l => Z.of_nat (String.length s) :: longs_of l
  | _ :: l => longs_of l
  end.
Fixpoint doubles_of (vs : list var) : list D :=
  match vs with [] => [] | VDbl d :: l => d :: doubles_of l | _ :: l => doubles_of l end.
Fixpoint strings_of (vs : list var) : string :=
  match vs with [] => "" | VStr s :: l => s +:+ strings_of l | _ :: l => strings_of l end.

Lemma sapp_assoc (a b c : string) : (a +:+ b) +:+ c = a +:+ (b +:+ c).
Proof. induction a as [|x a IH]; [done|]. change (String x ((a +:+ b) +:+ c) = String x (a +:+ (b +:+ c))). by rewrite IH. Qed.
Lemma sapp_nil (a : string) : a +:+ "" = a.
Proof. induction a as [|x a IH]; [done|]. change (String x (a +:+ "") = String x a). by rewrite IH. Qed.
Lemma slen_app (a b : string) : String.length (a +:+ b) = String.length a + String.length b.
Proof. induction a as [|x a IH]; [done|]. change (S (String.length (a +:+ b)) = S (String.length a + String.length b)). by rewrite IH. Qed.

Lemma put_values_spec row cols vs c :
  Forall2 (fun col v => col !! row = Some v) cols vs ->
  put_values row cols c =
    Ret (Coded (cd_types c ++ map type_code vs) (cd_longs c ++ longs_of vs)
               (cd_doubles c ++ doubles_of vs) (cd_strings c +:+ strings_of vs)).
Proof.
  intros H. revert c. induction H as [|col v cols vs Hv _ IH]; intros [ty lg db st]; cbn.
  - by rewrite !app_nil_r, sapp_nil.
  - rewrite Hv, IH. destruct v; cbn; rewrite <- ?app_assoc, ?sapp_assoc; done.
Qed.

Lemma substring_all s : String.substring 0 (String.length s) s = s.
Proof. induction s as [|x s IH]; [done|]. cbn. by rewrite IH. Qed.
Lemma substring_prefix s rest : String.substring 0 (String.length s) (s +:+ rest) = s.
Proof.
  induction s as [|x s IH].
  - by destruct rest.
  - change (String x (String.substring 0 (String.length s) (s +:+ rest)) = String x s). by rewrite IH.
Qed.
Lemma substring_suffix s rest n : String.substring (String.length s) n (s +:+ rest) = String.substring 0 n rest.
Proof.
  induction s as [|x s IH]; [done|].
  change (String.substring (String.length s) n (s +:+ rest) = String.substring 0 n rest). done.
Qed.
Lemma cut_app s rest : cut (String.length s) (s +:+ rest) = (s, rest).
Proof.
  unfold cut. rewrite substring_prefix, substring_suffix, slen_app.
  replace (String.length s + String.length rest - String.length s) with (String.length rest) by lia.
  by rewrite substring_all.
Qed.

Lemma take_headings_spec hs longs rest :
  take_headings (length hs) (map (fun h => Z.of_nat (String.length h)) hs ++ longs)
    (foldr String.append "" hs +:+ rest) = Ret (hs, longs, rest).
Proof.
  revert rest. induction hs as [|h hs IH]; intros rest; [done|].
  cbn [length map app take_headings rdv obind foldr]. rewrite Nat2Z.id.
  change (String.append h (foldr String.append "" hs)) with (h +:+ foldr String.append "" hs).
  rewrite sapp_assoc, cut_app. by rewrite IH.
Qed.

Lemma take_columns_spec hs vs : length hs = length vs -> forall t dbl str,
  exists c', take_columns hs 1 (Coded (map type_code vs) (longs_of vs) (doubles_of vs ++ dbl)
    (strings_of vs +:+ str)) t =
  obind (do_events (map (fun p => Punch p.1 p.2) (zip hs vs)) t) (fun t' => Ret (c', t')).
Proof.
  revert vs. induction hs as [|h hs IH]; intros [|v vs] Hl t dbl str; try done.
  - cbn. eauto.
  - injection Hl as Hl.
    assert (Hgo : forall t', exists c', take_columns hs 1 (Coded (map type_code vs) (longs_of vs) (doubles_of vs ++ dbl)
      (strings_of vs +:+ str)) t' =
      obind (do_events (map (fun p => Punch p.1 p.2) (zip hs vs)) t') (fun t'' => Ret (c', t'')))
      by (intros; apply (IH vs Hl)).
    cbn [take_columns take_column zip zip_with map do_events do_event fst snd].
    unfold take_value. destruct v as [|e|z|d|s]; cbn [map cd_types cd_longs cd_doubles cd_strings type_code rdv obind longs_of doubles_of strings_of app].
    all: repeat (first [rewrite decide_True by done | rewrite decide_False by done]); cbn [obind].
    all: rewrite ?Nat2Z.id, ?sapp_assoc, ?cut_app.
    all: match goal with |- context [push ?a ?b ?c] => destruct (push a b c) as [t'| |] end; cbn [obind]; [|by eexists (Coded [] [] [] "")..].
    all: apply Hgo.
Qed.

(** The row [vs] of table [t] written to table [u]. *)
Lemma transfer (t : table) row vs u :
  length (t_cols t) = col_count t ->
  Forall2 (fun col v => col !! row = Some v) (t_cols t) vs ->
  exists code, serialize row t = Ret code /\
    deserialize code u = do_events (map (fun p => Punch p.1 p.2) (zip (t_head t) vs) ++ [End]) u.
Proof.
  intros Hl Hv. unfold serialize. rewrite decide_False by lia. rewrite take_ge by lia.
  rewrite (put_values_spec _ _ _ _ Hv). eexists. split; [done|].
  unfold deserialize, put_headings. cbn [cd_types cd_longs cd_doubles cd_strings app rdv obind].
  rewrite Nat2Z.id.
  change ((foldr String.append "" (t_head t)) ++ strings_of vs)%string with
    (foldr String.append "" (t_head t) +:+ strings_of vs).
  rewrite take_headings_spec. cbn [obind]. change (Z.to_nat 1) with 1.
  assert (Hlen : length (t_head t) = length vs).
  { apply Forall2_length in Hv. unfold col_count in Hl. congruence. }
  destruct (take_columns_spec (t_head t) vs Hlen u [] "") as [c' E].
  rewrite app_nil_r, sapp_nil in E. rewrite E. rewrite do_events_app.
  destruct (do_events _ u); done.
Qed.

Lemma row_of t l r row :
  inv t l -> l_done l !! r = Some row ->
  length (t_cols t) = col_count t /\
  Forall2 (fun col v => col !! r = Some v) (t_cols t) (map (fun k => latest k row) (l_heads l)).
Proof.
  intros H Hr. unfold col_count. rewrite (inv_head _ _ H), (inv_cols _ _ H), map_length. split; [done|].
  apply Forall2_fmap_2. apply Forall_Forall2_diag. apply Forall_forall. intros k _.
  unfold column. rewrite lookup_app_l by (rewrite map_length; by eapply lookup_lt_Some).
  by rewrite list_lookup_fmap, Hr.
Qed.

(** The events by which row [row] of a table with headings [hs] arrives elsewhere. *)
Definition arrive (hs : list string) (row : list (string * var)) : list event :=
  map (fun k => Punch k (latest k row)) hs ++ [End].

Lemma transfer_made es (t : table) r row u :
  made es t -> l_done (log_of es) !! r = Some row ->
  exists code, serialize r t = Ret code /\
    deserialize code u = do_events (arrive (t_head t) row) u.
Proof.
  intros H Hr. apply made_inv in H. destruct (row_of _ _ _ _ H Hr) as [H1 H2].
  destruct (transfer t r _ u H1 H2) as (code & E1 & E2). exists code. split; [done|].
  rewrite E2. unfold arrive. do 2 f_equal. rewrite (inv_head _ _ H).
  clear. induction (l_heads (log_of es)) as [|k ks IH]; [done|]. cbn. by f_equal.
Qed.
End Proofs.
