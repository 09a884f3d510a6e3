(** Lemmas for the lists of variables *)
From Coq Require Import ZArith Ascii String Lia.
From stdpp Require Import prelude strings gmap.
From Verif.Reactant Require Import Model.
From Verif.Lists Require Import Model Spec.

Definition flags (e : entry) : bool * bool * bool := (e_setter e, e_getter e, e_ptr e).
Definition okv (v : var) (e : entry) : Prop :=
  (e_init e = true -> flags e = basic v /\ stays_initialized v = true) /\
  (flags e = basic v \/ flags e = (false, false, false)) /\
  (e_void e = true -> accepts v GetPtr = true /\ sets_void v = true).
Definition okm (m : var -> entry) : Prop := forall v, okv v (m v).

Lemma put_same v e m : put v e m v = e.
Proof. unfold put. by rewrite decide_True. Qed.
Lemma put_other v e m w : w <> v -> put v e m w = m w.
Proof. intros H. unfold put. by rewrite decide_False. Qed.
Lemma okm_put v e m : okm m -> okv v e -> okm (put v e m).
Proof.
  intros Hm He w. destruct (decide (w = v)) as [->|Hn]; [by rewrite put_same|by rewrite put_other].
Qed.

Lemma begin_ok v n e : okv v e -> okv v (begin_var v n e).
Proof.
  intros (H1 & H2 & H3). unfold begin_var. destruct (e_init e) eqn:Ei; [refine (conj (fun _ => H1 eq_refl) (conj H2 H3))|].
  destruct (basic v) as [[s g] p] eqn:Eb. case_decide as Hd.
  - destruct Hd as [-> ->]. unfold okv; split_and!; [done| |done]. cbn in Eb. rewrite <- Eb in H2. exact H2.
  - unfold okv; split_and!; [|left; by rewrite Eb|done]. cbn. intros ->. by rewrite Eb.
Qed.
Lemma begin_flags v n e : okv v e -> v <> SelectedOutputHeadings \/ n <> 0%nat -> flags (begin_var v n e) = basic v.
Proof.
  intros (H1 & _ & _) Hv. unfold begin_var. destruct (e_init e) eqn:Ei; [by apply H1|].
  destruct (basic v) as [[s g] p] eqn:Eb. case_decide as Hd; [|done].
  destruct Hd as [-> ->]. by destruct Hv.
Qed.
Lemma begin_none e : flags (begin_var SelectedOutputHeadings 0 e) = flags e.
Proof.
  unfold begin_var. destruct (e_init e); [done|]. cbn [basic]. by rewrite decide_True.
Qed.
Lemma begin_void v n e : e_void (begin_var v n e) = e_void e.
Proof. unfold begin_var. destruct (e_init e); [done|]. destruct (basic v) as [[? ?] ?]. by case_decide. Qed.

(** The entry of a variable after its function was called *)
Definition called (v : var) (t : task) (n : nat) (e : entry) : entry :=
  let e := begin_var v n e in
  match t with
  | GetPtr => if accepts v GetPtr && sets_void v then Entry (e_init e) (e_setter e) (e_getter e) (e_ptr e) true else e
  | _ => e
  end.
Lemma call_eq v t n m : call v t n m = (accepts v t, put v (called v t n (m v)) m).
Proof. reflexivity. Qed.
Lemma called_ok v t n e : okv v e -> okv v (called v t n e).
Proof.
  intros H%(begin_ok v n). unfold called. destruct t; try done.
  destruct (accepts v GetPtr) eqn:Ea; cbn [andb]; [|done]. destruct (sets_void v) eqn:Es; [|done].
  destruct H as (H1 & H2 & H3). unfold okv; by split_and!.
Qed.
Lemma called_flags v t n e : flags (called v t n e) = flags (begin_var v n e).
Proof. unfold called. destruct t; try done. by destruct (accepts v GetPtr && sets_void v). Qed.
Lemma call_ok v t n m : okm m -> okm (snd (call v t n m)).
Proof. intros H. rewrite call_eq. apply okm_put; [done|]. by apply called_ok. Qed.

Definition seen (v : var) (n : nat) (e : entry) : entry := if e_init e then e else begin_var v n e.
Lemma seen_begin v n e : seen v n e = begin_var v n e.
Proof. unfold seen, begin_var. by destruct (e_init e). Qed.
Lemma inform_eq v n m : forall w, inform v n m w = (if decide (w = v) then begin_var v n (m v) else m w).
Proof.
  intros w. unfold inform. destruct (e_init (m v)) eqn:Ei.
  - case_decide as Hd; [|done]. subst w. unfold begin_var. by rewrite Ei.
  - rewrite call_eq. cbn [snd]. unfold put. case_decide; done.
Qed.
Lemma inform_ok v n m : okm m -> okm (inform v n m).
Proof.
  intros H w. rewrite inform_eq. case_decide as Hd; [|done]. subst w. by apply begin_ok.
Qed.

(** One pass over variables *)
Lemma names_eq flag vs n : forall m, NoDup vs -> okm m ->
  okm (snd (names flag vs n m)) /\
  fst (names flag vs n m) = mjoin ((fun v => if flag (begin_var v n (m v)) then [var_name v] else []) <$> vs) /\
  forall w, snd (names flag vs n m) w = (if decide (w ∈ vs) then begin_var w n (m w) else m w).
Proof.
  induction vs as [|v vs IH]; intros m Hnd Hm.
  - split_and!; [done|done|]. intros w. case_decide as Hd; [|done]. by apply elem_of_nil in Hd.
  - apply NoDup_cons in Hnd as [Hv Hnd]. cbn [names].
    destruct (IH (inform v n m) Hnd (inform_ok _ _ _ Hm)) as (IH1 & IH2 & IH3).
    destruct (names flag vs n (inform v n m)) as [l m'] eqn:En. cbn [fst snd] in *. split_and!.
    + done.
    + cbn [fmap list_fmap mjoin list_join]. rewrite inform_eq, decide_True by done. f_equal. rewrite IH2. f_equal.
      apply list_fmap_ext. intros i w Hw. rewrite inform_eq, decide_False; [done|].
      intros ->. apply Hv. by eapply elem_of_list_lookup_2.
    + intros w. rewrite IH3, inform_eq. case_decide as H1.
      * rewrite (decide_True (P := w ∈ v :: vs)) by (by right). rewrite decide_False; [done|]. intros ->. done.
      * case_decide as H2.
        -- subst w. rewrite (decide_True (P := v ∈ v :: vs)) by (by left). done.
        -- rewrite decide_False; [done|]. intros [->|?]%elem_of_cons; done.
Qed.
Lemma tally_names flag vs n : forall m,
  tally flag vs n m = (length (fst (names flag vs n m)), snd (names flag vs n m)).
Proof.
  induction vs as [|v vs IH]; intros m; [done|]. cbn [tally names]. rewrite IH.
  destruct (names flag vs n (inform v n m)) as [l m']. cbn [fst snd]. rewrite app_length.
  by destruct (flag (inform v n m v)).
Qed.

Lemma all_nodup : NoDup all_vars.
Proof. by apply (bool_decide_unpack _); vm_compute. Qed.
Lemma all_all v : v ∈ all_vars.
Proof. apply (bool_decide_unpack _). destruct v; vm_compute; done. Qed.

(** The flags found in a pass over all variables: [h] is that of the headings *)
Definition found (h : bool) (v : var) : bool * bool * bool :=
  if decide (v = SelectedOutputHeadings) then (false, h, false) else basic v.
Definition heads (n : nat) (m : var -> entry) : bool := e_getter (begin_var SelectedOutputHeadings n (m SelectedOutputHeadings)).
Lemma found_eq n m v : okm m -> flags (begin_var v n (m v)) = found (heads n m) v.
Proof.
  intros Hm. unfold found. case_decide as Hd.
  - subst v. destruct (begin_ok _ n _ (Hm SelectedOutputHeadings)) as (_ & [H|H] & _);
      unfold flags, heads in *; inversion H; congruence.
  - apply begin_flags; [done|]. by left.
Qed.
Definition collected (f : bool * bool * bool -> bool) (h : bool) : list string :=
  mjoin ((fun v => if f (found h v) then [var_name v] else []) <$> all_vars).
Lemma begin_twice_flags v n e : okv v e -> flags (begin_var v n (begin_var v n e)) = flags (begin_var v n e).
Proof.
  intros H. destruct (decide (v = SelectedOutputHeadings /\ n = 0%nat)) as [[-> ->]|Hn].
  - apply begin_none.
  - rewrite !begin_flags; [done|done| |by apply begin_ok|]; destruct (decide (v = SelectedOutputHeadings)); naive_solver.
Qed.

Definition good (b : bmi) (m : var -> entry) : Prop := b_man b = Some m /\ okm m.
Definition headed (b : bmi) : bool := match b_man b with Some m => heads (b_tables b) m | None => false end.

Lemma pass_ok flag f m n : (forall e, flag e = f (flags e)) -> okm m ->
  exists m', names flag all_vars n m = (collected f (heads n m), m') /\ okm m' /\ heads n m' = heads n m /\
    forall v, m' v = begin_var v n (m v).
Proof.
  intros Hf Hm. destruct (names_eq flag all_vars n m all_nodup Hm) as (H1 & H2 & H3).
  exists (snd (names flag all_vars n m)).
  assert (H4 : forall v, snd (names flag all_vars n m) v = begin_var v n (m v)).
  { intros v. rewrite H3. rewrite decide_True; [done|]. apply all_all. }
  split_and!; [|done| |done].
  - rewrite (surjective_pairing (names flag all_vars n m)). cbn [snd]. f_equal. rewrite H2. unfold collected. f_equal.
    apply list_fmap_ext. intros i v _. by rewrite Hf, found_eq.
  - unfold heads. rewrite H4. pose proof (begin_twice_flags SelectedOutputHeadings n (m SelectedOutputHeadings) (Hm _)) as H.
    unfold flags in H. by inversion H.
Qed.

Lemma listed_ok flag f more b m : (forall e, flag e = f (flags e)) -> good b m ->
  exists m', listed flag more b = (Val (collected f (headed b) ++ more b), with_man m' b) /\ okm m' /\
    headed (with_man m' b) = headed b.
Proof.
  intros Hf [Hb Hm]. destruct (pass_ok flag f m (b_tables b) Hf Hm) as (m' & H1 & H2 & H3 & _). exists m'.
  unfold listed, headed. rewrite Hb, H1. cbn [b_man with_man b_tables]. done.
Qed.
Lemma counted_ok flag f more b m : (forall e, flag e = f (flags e)) -> good b m ->
  exists m', counted flag more b = (Val (length (collected f (headed b)) + more b)%nat, with_man m' b) /\ okm m' /\
    headed (with_man m' b) = headed b.
Proof.
  intros Hf [Hb Hm]. destruct (pass_ok flag f m (b_tables b) Hf Hm) as (m' & H1 & H2 & H3 & _). exists m'.
  unfold counted, headed. rewrite Hb, tally_names, H1. cbn [b_man with_man b_tables fst snd]. done.
Qed.
Lemma flag_setter e : e_setter e = (fun p => p.1.1) (flags e). Proof. done. Qed.
Lemma flag_getter e : e_getter e = (fun p => p.1.2) (flags e). Proof. done. Qed.
Lemma flag_ptr e : e_ptr e = (fun p => p.2) (flags e). Proof. done. Qed.
Lemma flag_unset e : negb (e_setter e) = (fun p => negb p.1.1) (flags e). Proof. done. Qed.

Lemma collected_setter h : collected (fun p => p.1.1) h = settable.
Proof. by destruct h; vm_compute. Qed.
Lemma collected_unset h : collected (fun p => negb p.1.1) h = fixed_only.
Proof. by destruct h; vm_compute. Qed.
Lemma collected_getter h : collected (fun p => p.1.2) h = gettable h.
Proof. by destruct h; vm_compute. Qed.
Lemma collected_ptr h : collected (fun p => p.2) h = pointable.
Proof. by destruct h; vm_compute. Qed.

(** The states of a history *)
Lemma renew_ok vs n : forall m, okm m -> okm (renew vs n m).
Proof.
  induction vs as [|v vs IH]; intros m Hm; [done|]. cbn [renew]. apply IH, call_ok, okm_put; [done|].
  destruct (Hm v) as (H1 & H2 & H3). unfold okv; by split_and!.
Qed.
Definition inv (l : list string) (b : bmi) : Prop :=
  (exists m, good b m) /\ forall k s, b_autos b !! k = Some s -> k = lowered s /\ s ∈ l.
Lemma inv_man l b m' : inv l b -> okm m' -> inv l (with_man m' b).
Proof. intros [_ H] Hm. split; [by exists m'|done]. Qed.
Lemma inv_listed l flag f more b : (forall e, flag e = f (flags e)) -> inv l b -> inv l (snd (listed flag more b)).
Proof.
  intros Hf H. destruct (H) as [[m Hm] _]. destruct (listed_ok flag f more b m Hf Hm) as (m' & -> & ? & _).
  by apply inv_man.
Qed.
Lemma inv_counted l flag f more b : (forall e, flag e = f (flags e)) -> inv l b -> inv l (snd (counted flag more b)).
Proof.
  intros Hf H. destruct (H) as [[m Hm] _]. destruct (counted_ok flag f more b m Hf Hm) as (m' & -> & ? & _).
  by apply inv_man.
Qed.
Lemma autos_ok l new : forall a, (forall k s, a !! k = Some s -> k = lowered s /\ s ∈ l) ->
  forall k s, add_autos new a !! k = Some s -> k = lowered s /\ s ∈ l ++ new.
Proof.
  revert l. induction new as [|x new IH]; intros l a Ha k s H.
  - rewrite app_nil_r. by apply Ha.
  - cbn [add_autos] in H. replace (l ++ x :: new) with ((l ++ [x]) ++ new) by by rewrite <- app_assoc.
    refine (IH (l ++ [x]) _ _ _ _ H). intros k' s' [[<- <-]|[_ H']]%lookup_insert_Some.
    + split; [done|]. apply elem_of_app; right. by left.
    + destruct (Ha _ _ H') as [? ?]. split; [done|]. apply elem_of_app; by left.
Qed.
Lemma inv_weaken l l' b : (forall s, s ∈ l -> s ∈ l') -> inv l b -> inv l' b.
Proof. intros Hl [H1 H2]. split; [done|]. intros k s H. destruct (H2 _ _ H). auto. Qed.

Lemma set_man s b m : good b m -> exists m', snd (set_value s b) = with_man m' b /\ okm m'.
Proof.
  intros [Hb Hm]. unfold set_value, enum. rewrite Hb. destruct (get_enum s) as [v|].
  - rewrite call_eq. eexists. split; [reflexivity|]. apply okm_put; [by apply inform_ok|]. apply called_ok. by apply inform_ok.
  - exists m. split; [|done]. destruct b; cbn in *. by subst.
Qed.
Lemma get_man s b m : good b m -> exists m', snd (get_value s b) = with_man m' b /\ okm m'.
Proof.
  intros [Hb Hm]. unfold get_value. rewrite Hb. destruct (get_enum s) as [v|].
  - rewrite call_eq. eexists. split; [reflexivity|]. apply okm_put; [by apply inform_ok|]. apply called_ok. by apply inform_ok.
  - exists m. split; [|done]. destruct b; cbn in *. by subst.
Qed.
Lemma ptr_man s b m : good b m -> exists m', snd (get_value_ptr s b) = with_man m' b /\ okm m'.
Proof.
  intros [Hb Hm]. assert (Hsame : b = with_man m b) by (destruct b; cbn in *; by subst).
  unfold get_value_ptr, enum. rewrite Hb. destruct (get_enum s) as [v|]; [|by exists m].
  destruct (e_void (m v)); [by exists m|]. rewrite call_eq. eexists. split; [reflexivity|].
  apply okm_put; [done|]. by apply called_ok.
Qed.
Lemma info_man s b m : good b m -> exists m', snd (get_var_info s b) = with_man m' b /\ okm m'.
Proof.
  intros [Hb Hm]. assert (Hsame : b = with_man m b) by (destruct b; cbn in *; by subst).
  unfold get_var_info. rewrite Hb. destruct (get_enum s) as [v|]; [|by exists m].
  eexists. split; [reflexivity|]. by apply inform_ok.
Qed.

Lemma step_inv l o b : inv l b -> inv (l ++ made [o]) (step o b).
Proof.
  intros H. destruct (H) as [[m Hg] Ha]. destruct o; cbn [step];
    try (unfold made; cbn [fmap list_fmap mjoin list_join]; rewrite app_nil_r).
  - unfold initialize. by rewrite (proj1 Hg).
  - by apply (inv_counted _ _ _ _ _ flag_ptr), (inv_counted _ _ _ _ _ flag_getter), (inv_counted _ _ _ _ _ flag_setter).
  - by apply (inv_listed _ _ _ _ _ flag_unset), (inv_listed _ _ _ _ _ flag_ptr), (inv_listed _ _ _ _ _ flag_getter),
      (inv_listed _ _ _ _ _ flag_setter).
  - destruct (set_man name b m Hg) as (m' & -> & ?). by apply inv_man.
  - destruct (get_man name b m Hg) as (m' & -> & ?). by apply inv_man.
  - destruct (ptr_man name b m Hg) as (m' & -> & ?). by apply inv_man.
  - destruct (info_man name b m Hg) as (m' & -> & ?). by apply inv_man.
  - unfold find_components. destruct Hg as [Hb Hm]. rewrite Hb. split; cbn [b_autos].
    + eexists. split; [reflexivity|]. by apply renew_ok.
    + by apply autos_ok.
  - unfold refresh. destruct Hg as [Hb Hm]. rewrite Hb. apply inv_man; [done|]. by apply call_ok.
  - split; [|done]. exists m. by destruct Hg.
Qed.
Lemma steps_inv os : forall l b, inv l b -> inv (l ++ made os) (steps os b).
Proof.
  induction os as [|o os IH]; intros l b H; cbn [steps].
  - unfold made. cbn. by rewrite app_nil_r.
  - apply (inv_weaken ((l ++ made [o]) ++ made os)); [|by apply IH, step_inv].
    intros s. rewrite <- app_assoc. unfold made. cbn [fmap list_fmap mjoin list_join]. rewrite app_nil_r. done.
Qed.
Lemma new_ok : okm (fun _ => new_entry).
Proof. intros v. unfold okv; split_and!; cbn; [done|by right|done]. Qed.
Lemma after_inv os n : inv (made os) (after os n).
Proof.
  apply (steps_inv os []). split; [|done]. exists (fun _ => new_entry). split; [done|apply new_ok].
Qed.

(** The automatic variables made in a history are kept. *)
Definition kept (l : list string) (b : bmi) : Prop := forall s, s ∈ l -> is_Some (b_autos b !! lowered s).
Lemma autos_grow new : forall a k, is_Some (a !! k) -> is_Some (add_autos new a !! k).
Proof.
  induction new as [|x new IH]; intros a k H; [done|]. cbn [add_autos]. apply IH.
  destruct (decide (lowered x = k)) as [<-|Hn]; [rewrite lookup_insert; by eexists|by rewrite lookup_insert_ne].
Qed.
Lemma autos_new new : forall a s, s ∈ new -> is_Some (add_autos new a !! lowered s).
Proof.
  induction new as [|x new IH]; intros a s H; [by apply elem_of_nil in H|]. cbn [add_autos].
  apply elem_of_cons in H as [->|H]; [|by apply IH]. apply autos_grow. rewrite lookup_insert. by eexists.
Qed.
Lemma step_kept l l' o b : inv l' b -> kept l b -> kept (l ++ made [o]) (step o b).
Proof.
  intros H K. destruct (H) as [[m Hg] _].
  assert (Hsame : match o with Find _ _ => True | _ => b_autos (step o b) = b_autos b /\ made [o] = [] end).
  { destruct o; cbn [step]; try done; split; try done.
    - unfold initialize. by rewrite (proj1 Hg).
    - unfold input_count. destruct (counted_ok e_setter _ (fun _ => 0%nat) _ _ flag_setter Hg) as (m1 & -> & G1 & _). cbn [snd].
      unfold output_count.
      destruct (counted_ok e_getter _ (fun b => size (b_autos b)) _ _ flag_getter (conj eq_refl G1 : good (with_man m1 b) m1))
        as (m2 & -> & G2 & _). cbn [snd]. unfold pointable_count.
      by destruct (counted_ok e_ptr _ (fun _ => 0%nat) _ _ flag_ptr (conj eq_refl G2 : good (with_man m2 (with_man m1 b)) m2))
        as (m3 & -> & _ & _).
    - unfold input_names. destruct (listed_ok e_setter _ (fun _ => []) _ _ flag_setter Hg) as (m1 & -> & G1 & _). cbn [snd].
      unfold output_names.
      destruct (listed_ok e_getter _ auto_names _ _ flag_getter (conj eq_refl G1 : good (with_man m1 b) m1))
        as (m2 & -> & G2 & _). cbn [snd]. unfold pointable_names.
      destruct (listed_ok e_ptr _ (fun _ => []) _ _ flag_ptr (conj eq_refl G2 : good (with_man m2 (with_man m1 b)) m2))
        as (m3 & -> & G3 & _). cbn [snd]. unfold read_only_names.
      by destruct (listed_ok _ _ (fun _ => []) _ _ flag_unset
        (conj eq_refl G3 : good (with_man m3 (with_man m2 (with_man m1 b))) m3)) as (m4 & -> & _ & _).
    - by destruct (set_man name b m Hg) as (m' & -> & ?).
    - by destruct (get_man name b m Hg) as (m' & -> & ?).
    - by destruct (ptr_man name b m Hg) as (m' & -> & ?).
    - by destruct (info_man name b m Hg) as (m' & -> & ?).
    - unfold refresh. by rewrite (proj1 Hg). }
  destruct o; try (destruct Hsame as [E1 E2]; rewrite E2, app_nil_r; intros s Hs; rewrite E1; by apply K).
  intros s [Hs|Hs]%elem_of_app; cbn [step]; unfold find_components; rewrite (proj1 Hg); cbn [b_autos].
  - by apply autos_grow, K.
  - unfold made in Hs. cbn in Hs. rewrite app_nil_r in Hs. by apply autos_new.
Qed.
Lemma steps_kept os : forall l b, inv l b -> kept l b -> kept (l ++ made os) (steps os b).
Proof.
  induction os as [|o os IH]; intros l b H K; cbn [steps].
  - unfold made. cbn. by rewrite app_nil_r.
  - pose proof (IH _ _ (step_inv l o b H) (step_kept _ _ o b H K)) as K'. intros s Hs. apply K'. rewrite <- app_assoc.
    unfold made in *. cbn [fmap list_fmap mjoin list_join] in *. by rewrite app_nil_r.
Qed.
Lemma after_kept os n : kept (made os) (after os n).
Proof.
  apply (steps_kept os []); [|by intros s ?%elem_of_nil]. split; [|done]. exists (fun _ => new_entry).
  split; [done|apply new_ok].
Qed.

(** Histories without selected output *)
Definition bare (b : bmi) : Prop :=
  b_tables b = 0%nat /\ exists m, b_man b = Some m /\ e_getter (m SelectedOutputHeadings) = false.
Lemma begin_bare e : e_getter (begin_var SelectedOutputHeadings 0 e) = e_getter e.
Proof. pose proof (begin_none e) as H. unfold flags in H. by inversion H. Qed.
Lemma bare_headed b : bare b -> headed b = false.
Proof. intros (Ht & m & Hb & H). unfold headed, heads. by rewrite Hb, Ht, begin_bare. Qed.
Lemma called_getter v t n e : e_getter (called v t n e) = e_getter (begin_var v n e).
Proof. pose proof (called_flags v t n e) as H. unfold flags in H. by inversion H. Qed.
Lemma call_bare v t m : e_getter (m SelectedOutputHeadings) = false ->
  e_getter (snd (call v t 0 m) SelectedOutputHeadings) = false.
Proof.
  intros H. rewrite call_eq. cbn [snd]. destruct (decide (SelectedOutputHeadings = v)) as [<-|Hn].
  - by rewrite put_same, called_getter, begin_bare.
  - by rewrite put_other.
Qed.
Lemma inform_bare v m : e_getter (m SelectedOutputHeadings) = false ->
  e_getter (inform v 0 m SelectedOutputHeadings) = false.
Proof. intros H. unfold inform. destruct (e_init (m v)); [done|]. by apply call_bare. Qed.
Lemma names_bare flag vs : forall m, e_getter (m SelectedOutputHeadings) = false ->
  e_getter (snd (names flag vs 0 m) SelectedOutputHeadings) = false.
Proof.
  induction vs as [|v vs IH]; intros m H; [done|]. cbn [names].
  pose proof (IH _ (inform_bare v m H)) as H'. by destruct (names flag vs 0 (inform v 0 m)).
Qed.
Lemma listed_bare flag more b : bare b -> bare (snd (listed flag more b)).
Proof.
  intros (Ht & m & Hb & H). unfold listed. rewrite Hb, Ht. pose proof (names_bare flag all_vars m H) as H'.
  destruct (names flag all_vars 0 m) as [l m']. split; [done|]. by exists m'.
Qed.
Lemma counted_bare flag more b : bare b -> bare (snd (counted flag more b)).
Proof.
  intros (Ht & m & Hb & H). unfold counted. rewrite Hb, Ht, tally_names. split; [done|].
  eexists. split; [reflexivity|]. by apply names_bare.
Qed.
Lemma renew_bare vs : forall m, e_getter (m SelectedOutputHeadings) = false ->
  e_getter (renew vs 0 m SelectedOutputHeadings) = false.
Proof.
  induction vs as [|v vs IH]; intros m H; [done|]. cbn [renew]. apply IH, call_bare.
  destruct (decide (SelectedOutputHeadings = v)) as [<-|Hn]; [by rewrite put_same|by rewrite put_other].
Qed.
Lemma step_bare o b : match o with Find _ n | Tables n => n = 0%nat | _ => True end -> bare b -> bare (step o b).
Proof.
  intros Ho Hbare. destruct (Hbare) as (Ht & m & Hb & H). destruct o; cbn [step].
  - unfold initialize. by rewrite Hb.
  - by repeat apply counted_bare.
  - by repeat apply listed_bare.
  - unfold set_value, enum. rewrite Hb, Ht. destruct (get_enum name) as [v|]; [|done].
    pose proof (call_bare v SetVar _ (inform_bare v m H)) as H'. destruct (call v SetVar 0 _) as [ok m'].
    split; [done|]. by exists m'.
  - unfold get_value. rewrite Hb, Ht. destruct (get_enum name) as [v|]; [|done].
    pose proof (call_bare v GetVar _ (inform_bare v m H)) as H'. destruct (call v GetVar 0 _) as [ok m'].
    split; [done|]. by exists m'.
  - unfold get_value_ptr, enum. rewrite Hb, Ht. destruct (get_enum name) as [v|]; [|done].
    destruct (e_void (m v)); [done|].
    pose proof (call_bare v GetPtr _ H) as H'. destruct (call v GetPtr 0 _) as [ok m'].
    split; [done|]. by exists m'.
  - unfold get_var_info. rewrite Hb, Ht. destruct (get_enum name) as [v|]; [|done].
    split; [done|]. eexists. split; [reflexivity|]. by apply inform_bare.
  - subst. unfold find_components. rewrite Hb. split; [done|]. eexists. split; [reflexivity|]. by apply renew_bare.
  - unfold refresh. rewrite Hb, Ht. split; [done|]. eexists. split; [reflexivity|]. by apply call_bare.
  - subst. split; [done|]. by exists m.
Qed.
Lemma steps_bare os : forall b, never_tables os -> bare b -> bare (steps os b).
Proof.
  induction os as [|o os IH]; intros b Hn Hb; [done|]. cbn [steps]. apply IH.
  - intros o' Ho. apply Hn. by right.
  - apply step_bare; [|done]. apply Hn. by left.
Qed.

(** Names *)
Lemma get_enum_name v name : lowered (var_name v) = lowered name -> get_enum name = Some v.
Proof. intros H. unfold get_enum. rewrite <- H. by destruct v; vm_compute. Qed.
Lemma get_enum_some name v : get_enum name = Some v -> lowered (var_name v) = lowered name.
Proof.
  unfold get_enum. intros H. apply find_some in H as [_ H]. by apply String.eqb_eq in H.
Qed.
Lemma get_enum_none name : get_enum name = None -> ~ known_in name (settable ++ fixed_only).
Proof.
  intros H (s & Hs & Hl).
  assert (Hv : exists v, var_name v = s).
  { cbn in Hs. repeat (apply elem_of_cons in Hs as [->|Hs]; [match goal with |- exists v, _ = ?n => idtac end|]);
      [..|by apply elem_of_nil in Hs].
    all: match goal with |- exists v, var_name v = ?n =>
           let r := eval vm_compute in (find (fun v => String.eqb (var_name v) n) all_vars) in
           match r with Some ?w => by exists w end end. }
  destruct Hv as [v <-]. by rewrite (get_enum_name v name Hl) in H.
Qed.
Lemma lowered_inj v w : lowered (var_name v) = lowered (var_name w) -> v = w.
Proof. intros H. pose proof (get_enum_name v _ H) as H1. rewrite (get_enum_name w _ eq_refl) in H1. congruence. Qed.
Lemma known_in_dec_fixed name v l : get_enum name = Some v -> (forall s, s ∈ l -> exists w, s = var_name w) ->
  known_in name l <-> var_name v ∈ l.
Proof.
  intros Hv%get_enum_some Hl. split.
  - intros (s & Hs & He). destruct (Hl _ Hs) as [w ->]. rewrite <- Hv in He. by apply lowered_inj in He as ->.
  - intros H. by exists (var_name v).
Qed.
Lemma fixed_vars s : s ∈ settable ++ fixed_only -> exists w, s = var_name w.
Proof.
  intros Hs. destruct (get_enum s) as [v|] eqn:E.
  - assert (Hd : forallb (fun s => match get_enum s with Some v => String.eqb s (var_name v) | None => false end)
                   (settable ++ fixed_only) = true) by by vm_compute.
    rewrite forallb_forall in Hd. specialize (Hd s). rewrite E in Hd. exists v. apply String.eqb_eq, Hd.
    by apply elem_of_list_In.
  - exfalso. apply (get_enum_none s E). by exists s.
Qed.
Lemma in_lists (v : var) :
  (var_name v ∈ settable <-> accepts v SetVar = true) /\ (var_name v ∈ fixed_only <-> accepts v SetVar = false) /\
  (var_name v ∈ gettable true <-> accepts v GetVar = true) /\
  (var_name v ∈ pointable <-> accepts v GetPtr && sets_void v = true).
Proof.
  assert (forall (l : list string) (b : bool), bool_decide (var_name v ∈ l) = b -> (var_name v ∈ l <-> b = true)) as H.
  { intros l b <-. by rewrite bool_decide_eq_true. }
  split_and!.
  - apply H. by destruct v; vm_compute.
  - rewrite <- negb_true_iff. apply H. by destruct v; vm_compute.
  - apply H. by destruct v; vm_compute.
  - apply H. by destruct v; vm_compute.
Qed.

(** Packed names *)
Lemma longest_le l s : s ∈ l -> (String.length s <= longest l)%nat.
Proof.
  induction l as [|x l IH]; [by intros ?%elem_of_nil|]. change (longest (x :: l)) with (Nat.max (String.length x) (longest l)).
  intros [->|H]%elem_of_cons.
  - lia.
  - specialize (IH H). lia.
Qed.
Lemma pad_length n s : (String.length s <= n)%nat -> length (pad n s) = n.
Proof.
  intros H. unfold pad. rewrite app_length, replicate_length.
  assert (length (list_ascii_of_string s) = String.length s) as ->.
  { clear. induction s; cbn; congruence. }
  lia.
Qed.
Lemma elements_pad w l : (forall s, s ∈ l -> (String.length s <= w)%nat) ->
  length (mjoin (pad w <$> l)) = (length l * w)%nat /\ elements (length l) w (mjoin (pad w <$> l)) = pad w <$> l.
Proof.
  induction l as [|s l IH]; intros H; [done|].
  assert (Hs : length (pad w s) = w) by (apply pad_length, H; by left).
  destruct IH as [IH1 IH2]; [intros x Hx; apply H; by right|].
  cbn [fmap list_fmap mjoin list_join length elements]. split.
  - rewrite app_length, Hs. cbn. f_equal. exact IH1.
  - rewrite take_app_alt, drop_app_alt by done. by f_equal.
Qed.
