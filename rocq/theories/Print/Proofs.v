From Coq Require Import ZArith String.
From stdpp Require Import prelude strings pretty.
From Verif.Partition Require Import Spec EndCellsProofs.
From Verif.Init Require Import Model.
From Verif.Print Require Import Model Spec.
Open Scope Z_scope.
Open Scope list_scope.

Lemma sapp_assoc (a b c : string) : ((a +:+ b) +:+ c = a +:+ (b +:+ c))%string.
Proof. induction a as [|x a IH]; [done|]. exact (f_equal (String x) IH). Qed.
Lemma sapp_nil (a : string) : (a +:+ "" = a)%string.
Proof. induction a as [|x a IH]; [done|]. exact (f_equal (String x) IH). Qed.
Lemma texts_app l l' : texts (l ++ l') = (texts l +:+ texts l')%string.
Proof. induction l as [|s l IH]; [done|]. cbn [app texts]. by rewrite IH, sapp_assoc. Qed.
Lemma texts_concat ls : texts (concat ls) = texts (map texts ls).
Proof. induction ls as [|l ls IH]; [done|]. cbn [concat map texts]. by rewrite texts_app, IH. Qed.

(** ** Ranges *)
Lemma ranges_from ss : forall es a b, length ss = length es -> ss !! 0%nat = Some a -> last es = Some b ->
  (forall t s e, ss !! t = Some s -> es !! t = Some e -> s <= e) ->
  (forall t e s, es !! t = Some e -> ss !! S t = Some s -> s = e + 1) ->
  a <= b /\ concat (map range (zip ss es)) = seqZ a (b - a + 1).
Proof.
  induction ss as [|s ss IH]; intros [|e es] a b Hl Ha Hb Hne Hc; try done. injection Ha as ->.
  pose proof (Hne 0%nat a e eq_refl eq_refl) as Hae. cbn [zip_with map concat].
  destruct ss as [|s2 ss].
  - destruct es; [|done]. injection Hb as ->. split; [done|]. cbn. by rewrite app_nil_r.
  - destruct es as [|e2 es]; [done|]. assert (s2 = e + 1) as -> by by apply (Hc 0%nat).
    destruct (IH (e2 :: es) (e + 1) b) as [H1 H2].
    + cbn in *. lia.
    + done.
    + done.
    + intros t s e0 H1 H2. by apply (Hne (S t)).
    + intros t e0 s H1 H2. by apply (Hc (S t)).
    + split; [lia|]. rewrite H2. unfold range. cbn [fst snd].
      replace (b - a + 1) with ((e - a + 1) + (b - (e + 1) + 1)) by lia. rewrite (seqZ_app a (e - a + 1) (b - (e + 1) + 1)) by lia.
      replace (a + (e - a + 1)) with (e + 1) by lia. done.
Qed.
Lemma ranges_all count ss es : valid_split count ss es -> concat (map range (zip ss es)) = seqZ 0 count.
Proof.
  intros V. destruct (ranges_from ss es 0 (count - 1)) as [_ H]; [apply V..|]. rewrite H. f_equal. lia.
Qed.

Section Print.
Context {D : Type} (dry : D -> bool) (d0 : D) (back : list (list Z)) (mask : list Z) (sat : list D) (time : string)
  (run : Z -> bool * string * string).
Local Notation mask_root := (mask_root back mask).
Local Notation sat_root := (sat_root d0 back sat).
Local Notation cell_loop := (cell_loop dry back time run).
Local Notation entry := (entry dry d0 back mask sat time run).
Local Notation fails := (fails dry d0 back sat run).
Local Notation ended := (ended dry d0 back sat run).
Local Notation left_text := (left_text dry d0 back mask sat time run).

Lemma mask_at i : mask_root i = at_first back 0 mask i.
Proof. unfold mask_root, first_cell, grid_cells, at_first. by destruct (back !! Z.to_nat i) as [[|j l]|]. Qed.
Lemma sat_at i : sat_root i = at_first back d0 sat i.
Proof. unfold sat_root, first_cell, grid_cells, at_first. by destruct (back !! Z.to_nat i) as [[|j l]|]. Qed.
Lemma heading_lines i t : (heading back time i +:+ nl +:+ t)%string =
  (lines ["Time:                   " +:+ time; "Chemistry cell:         " +:+ pretty i;
    "Grid cell(s) (0-based): " +:+ texts ((fun j => (pretty j +:+ " ")%string) <$> default [] (back !! Z.to_nat i))] +:+ t)%string.
Proof. unfold heading, lines, grid_cells. cbn [map texts]. rewrite !sapp_assoc. reflexivity. Qed.

(** ** One worker *)
Lemma loop_spec mode cells : mode < 3 ->
  exists done failed, ended cells done failed /\
    (cell_loop mode true mask_root sat_root cells).1 = left_text (done, failed) /\
    (forall pr, (cell_loop mode pr mask_root sat_root cells).2 = snd <$> failed).
Proof.
  intros Hm. induction cells as [|i r IH].
  { exists [], None. split; [split; [by intros ? ? ?%elem_of_nil|done]|]. by split. }
  destruct IH as (ds & failed & [E1 E2] & E3 & E4). cbn [cell_loop andb].
  rewrite sat_at. destruct (dry (at_first back d0 sat i)) eqn:Hd; cycle 1.
  { destruct (run i) as [[[] t] e] eqn:Hr; cycle 1.
    - exists [], (Some (i, e)). split; [|split].
      + split; [by intros ? ? ?%elem_of_nil|]. split; [split; [done|by exists t]|by exists r].
      + rewrite decide_True by done. unfold left_text. cbn [fst snd map texts]. rewrite mask_at, Hr.
        unfold output_string. destruct (decide (at_first back 0 mask i = 0)) as [H|H].
        * by rewrite bool_decide_false by tauto.
        * by rewrite bool_decide_true by tauto.
      + intros pr. by rewrite decide_True by done.
    - exists (i :: ds), failed. split; [|split].
      + split.
        * intros j e' Hj Hf. apply elem_of_cons in Hj as [->|Hj]; [|by apply (E1 j e')].
          destruct Hf as (_ & t' & Ht). congruence.
        * destruct failed as [[j e']|]; [|congruence]. destruct E2 as [E2 [l ->]]. split; [done|]. by exists l.
      + cbn [fst]. rewrite E3. unfold left_text. cbn [fst snd map texts]. rewrite sapp_assoc. f_equal.
        unfold entry. rewrite mask_at, Hd, Hr. destruct (decide (at_first back 0 mask i = 0)) as [H|H].
        * by rewrite bool_decide_false by tauto.
        * rewrite bool_decide_true by tauto. apply heading_lines.
      + intros pr. cbn [snd]. apply E4. }
  exists (i :: ds), failed. split; [|split].
  - split.
    + intros j e' Hj Hf. apply elem_of_cons in Hj as [->|Hj]; [|by apply (E1 j e')]. destruct Hf as [Hf _]. congruence.
    + destruct failed as [[j e']|]; [|congruence]. destruct E2 as [E2 [l ->]]. split; [done|]. by exists l.
  - cbn [fst]. rewrite E3. unfold left_text. cbn [fst snd map texts]. rewrite sapp_assoc. f_equal.
    unfold entry. rewrite mask_at, Hd. destruct (decide (at_first back 0 mask i = 0)) as [H|H].
    + by rewrite bool_decide_false by tauto.
    + rewrite bool_decide_true by tauto. apply heading_lines.
  - intros pr. cbn [snd]. apply E4.
Qed.
Lemma loop_whole mode pr cells : 3 <= mode \/ (forall i e, i ∈ cells -> ~ fails i e) ->
  (pr = true -> (cell_loop mode pr mask_root sat_root cells).1 = texts (map entry cells)) /\
  (cell_loop mode pr mask_root sat_root cells).2 = None.
Proof.
  intros H. induction cells as [|i r IH]; [done|].
  destruct IH as [IH1 IH2]; [destruct H as [H|H]; [by left|right; intros j e Hj; apply H; by right]|].
  cbn [cell_loop map texts]. rewrite sat_at. unfold entry at 1. rewrite mask_at.
  destruct (dry (at_first back d0 sat i)) eqn:Hd; [|destruct (run i) as [[[] t] e] eqn:Hr].
  - cbn [fst snd]. split; [|done]. intros ->. rewrite IH1 by done. f_equal. cbn [andb].
    destruct (decide (at_first back 0 mask i = 0)) as [Hz|Hz].
    + by rewrite bool_decide_false by tauto.
    + rewrite bool_decide_true by tauto. apply heading_lines.
  - cbn [fst snd]. split; [|done]. intros ->. rewrite IH1 by done. f_equal. cbn [andb].
    destruct (decide (at_first back 0 mask i = 0)) as [Hz|Hz].
    + by rewrite bool_decide_false by tauto.
    + rewrite bool_decide_true by tauto. apply heading_lines.
  - destruct (decide (mode < 3)) as [Hm|Hm].
    { destruct H as [H|H]; [lia|]. destruct (H i e); [by left|]. split; [done|]. by exists t. }
    cbn [fst snd]. split; [|done]. intros ->. rewrite IH1 by done. f_equal. cbn [andb].
    destruct (decide (at_first back 0 mask i = 0)) as [Hz|Hz].
    + by rewrite bool_decide_false by tauto.
    + rewrite bool_decide_true by tauto. apply heading_lines.
Qed.
Lemma loop_ext mode pr m m' (s s' : Z -> D) cells : (forall i, i ∈ cells -> m i = m' i /\ s i = s' i) ->
  cell_loop mode pr m s cells = cell_loop mode pr m' s' cells.
Proof.
  induction cells as [|i r IH]; intros H; [done|]. cbn [cell_loop]. destruct (H i) as [-> ->]; [by left|].
  by rewrite IH by (intros j Hj; apply H; by right).
Qed.
Lemma scatter_at {A} (f : Z -> A) d r i : i ∈ range r -> default d (scatter f r !! Z.to_nat (i - r.1)) = f i.
Proof.
  unfold range, scatter. intros Hi. apply elem_of_seqZ in Hi. unfold range.
  rewrite list_lookup_fmap. rewrite lookup_seqZ_lt by lia. cbn. f_equal. lia.
Qed.
Lemma worker_mpi_same mode pr r :
  worker_mpi dry d0 back mask sat time run mode pr r = cell_loop mode pr mask_root sat_root (range r).
Proof. apply loop_ext. intros i Hi. by rewrite !scatter_at. Qed.

(** ** Actions *)
Definition said (l : list act) : list string := concat (map (fun a => match a with ASay s => [s] | AClear => [] end) l).
Lemma said_app l l' : said (l ++ l') = said l ++ said l'.
Proof. unfold said. by rewrite map_app, concat_app. Qed.
Lemma acts_files l : forall k,
  k_out (fold_left (fun k a => do_act a k) l k) = (k_out k +:+ texts (said l))%string /\
  k_log (fold_left (fun k a => do_act a k) l k) = (k_log k +:+ texts (said l))%string.
Proof.
  induction l as [|a l IH]; intros k; [by rewrite !sapp_nil|]. cbn [fold_left]. destruct (IH (do_act a k)) as [-> ->].
  destruct a as [|s]; [done|]. cbn [do_act say k_out k_log]. unfold said. cbn [map concat app texts].
  by rewrite !sapp_assoc.
Qed.
Lemma turns_said ls l : turns ls l -> said l ≡ₚ concat (map said ls).
Proof.
  induction 1 as [ls H|ls n a r l Hn _ IH].
  - induction H as [|x ls <- _ IH]; done.
  - assert (E : concat (map said ls) ≡ₚ said [a] ++ concat (map said (<[n := r]> ls))).
    { clear IH. revert n Hn. induction ls as [|x ls IHl]; intros [|n] Hn; try done.
      - injection Hn as ->. cbn [list_insert map concat insert]. change (a :: r) with ([a] ++ r). rewrite said_app. by rewrite <- app_assoc.
      - cbn [list_insert map concat insert]. rewrite (IHl n Hn). rewrite !app_assoc. f_equiv; [apply (comm (++))|done]. }
    rewrite E. change (a :: l) with ([a] ++ l). by rewrite said_app, IH.
Qed.
Lemma replicate_said n : said (replicate n AClear) = [].
Proof. induction n as [|n IH]; [done|]. exact IH. Qed.
Lemma worker_said uz cells f : said (worker_acts uz cells f) = match f with Some e => [error_line e] | None => [] end.
Proof.
  unfold worker_acts. rewrite said_app. assert (said (if uz then replicate (length cells) AClear else []) = []) as ->.
  { destruct uz; [apply replicate_said|done]. }
  by destruct f.
Qed.
Lemma put_all (ws : list (string * option string)) : forall k, fold_left (fun k w => put w.1 k) ws k = put (texts (map fst ws)) k.
Proof.
  induction ws as [|w ws IH]; intros k; cbn [fold_left map texts].
  - destruct k. unfold put. cbn. by rewrite sapp_nil.
  - rewrite IH. unfold put. cbn [k_err k_out k_log]. by rewrite sapp_assoc.
Qed.
Definition errs (ws : list (string * option string)) : list string :=
  concat (map (fun w => match w.2 with Some e => [e] | None => [] end) ws).
Lemma errors_threads_say (ws : list (string * option string)) : forall k,
  errors_threads ws k = say (texts (map plain_line (errs ws))) k.
Proof.
  unfold errors_threads, errs.
  induction ws as [|[t [e|]] ws IH]; intros k; cbn [fold_left map concat app snd].
  - destruct k. unfold say. cbn. by rewrite !sapp_nil.
  - rewrite IH. unfold say. cbn [k_err k_out k_log map texts]. by rewrite !sapp_assoc.
  - apply IH.
Qed.
Lemma any_failed_errs ws : any_failed ws = match errs ws with [] => false | _ => true end.
Proof.
  unfold any_failed, errs. induction ws as [|[t [e|]] ws IH]; [done..|]. exact IH.
Qed.
Local Instance act_eq_dec : EqDecision act.
Proof. solve_decision. Defined.
Lemma turns_all ls : exists l, turns ls l.
Proof.
  remember (sum_list (map length ls)) as n eqn:En. revert ls En. induction n as [n IH] using lt_wf_ind. intros ls En.
  destruct (decide (Forall (eq []) ls)) as [H|H]; [exists []; by constructor|].
  apply not_Forall_Exists in H; [|apply _]. apply Exists_exists in H as (x & Hx & Hne).
  apply elem_of_list_lookup in Hx as [i Hi]. destruct x as [|a r]; [done|].
  destruct (IH (sum_list (map length (<[i := r]> ls)))) with (ls := <[i := r]> ls) as [l Hl]; [|done|].
  - subst n. clear IH Hne. revert i Hi. induction ls as [|y ls IHl]; intros [|i] Hi; try done.
    + injection Hi as ->. cbn. lia.
    + apply (proj1 (Nat.add_lt_mono_l _ _ (length y))). exact (IHl i Hi).
  - exists (a :: l). by eapply turns_step.
Qed.
Lemma failed_report_eq k : return_failed (clear_err k) = Sink failed_report (k_out k +:+ failed_report) (k_log k +:+ failed_report).
Proof.
  unfold return_failed, failed_report, clear_err, say, lines, error_line, plain_line. cbn [k_err k_out k_log map texts].
  f_equal; rewrite ?sapp_assoc; reflexivity.
Qed.
End Print.
