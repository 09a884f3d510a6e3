(** C103 and C104: the lists of BMI variables, their counts, and the calls accepted *)
From Coq Require Import ZArith Ascii String Lia.
From stdpp Require Import prelude strings gmap.
From Verif.Reactant Require Import Model.
From Verif.Lists Require Import Model Spec Proofs.

(** ** C103: the lists and the counts *)
(** After Initialize, whatever was called before, the lists are the documented ones. The output list has the
    headings of selected output if there is a selected output, and does not if there never was one; then come
    the automatic variables. *)
Theorem lists_documented os n b : b = after os n ->
  fst (input_names b) = Val settable /\ fst (read_only_names b) = Val fixed_only /\
  fst (pointable_names b) = Val pointable /\
  exists h, fst (output_names b) = Val (gettable h ++ auto_names b) /\
    (b_tables b <> 0%nat -> h = true) /\ (n = 0%nat -> never_tables os -> h = false).
Proof.
  intros ->. destruct (after_inv os n) as [[m Hg] _]. split_and!.
  - unfold input_names. destruct (listed_ok e_setter _ (fun _ => []) _ _ flag_setter Hg) as (? & -> & _).
    cbn [fst]. by rewrite collected_setter, app_nil_r.
  - unfold read_only_names. destruct (listed_ok _ _ (fun _ => []) _ _ flag_unset Hg) as (? & -> & _).
    cbn [fst]. by rewrite collected_unset, app_nil_r.
  - unfold pointable_names. destruct (listed_ok e_ptr _ (fun _ => []) _ _ flag_ptr Hg) as (? & -> & _).
    cbn [fst]. by rewrite collected_ptr, app_nil_r.
  - exists (headed (after os n)). split_and!.
    + unfold output_names. destruct (listed_ok e_getter _ auto_names _ _ flag_getter Hg) as (? & -> & _).
      cbn [fst]. by rewrite collected_getter.
    + intros Ht. destruct Hg as [Hb Hm]. unfold headed, heads. rewrite Hb.
      pose proof (begin_flags SelectedOutputHeadings _ _ (Hm _) (or_intror Ht)) as H. unfold flags in H. by inversion H.
    + intros -> Hnt. apply bare_headed, steps_bare; [done|]. split; [done|]. by exists (fun _ => new_entry).
Qed.
Print Assumptions lists_documented.

(** The automatic variables listed are those made in the history, up to case, and each is listed once. *)
Theorem lists_automatic os n b : b = after os n ->
  (forall s, s ∈ made os -> known_in s (auto_names b)) /\ (forall s, s ∈ auto_names b -> s ∈ made os) /\
  NoDup (lowered <$> auto_names b).
Proof.
  intros ->. destruct (after_inv os n) as [_ Ha]. pose proof (after_kept os n) as Hk. set (b := after os n) in *.
  assert (Hauto : forall k s, (k, s) ∈ map_to_list (b_autos b) -> k = lowered s /\ s ∈ made os).
  { intros k s H%elem_of_map_to_list. by apply Ha. }
  split_and!.
  - intros s Hs. destruct (Hk s Hs) as [s' Hs']. exists s'. destruct (Ha _ _ Hs') as [He _]. split; [|done].
    unfold auto_names. apply elem_of_list_fmap. exists (lowered s, s'). split; [done|]. by apply elem_of_map_to_list.
  - intros s Hs. unfold auto_names in Hs. apply elem_of_list_fmap in Hs as ([k s'] & -> & H). by destruct (Hauto _ _ H).
  - unfold auto_names. rewrite <- list_fmap_compose.
    assert (E : compose lowered snd <$> map_to_list (b_autos b) = (map_to_list (b_autos b)).*1).
    { apply list_fmap_ext. intros i [k s] H%elem_of_list_lookup_2. cbn. by destruct (Hauto _ _ H). }
    rewrite E. apply NoDup_fst_map_to_list.
Qed.
Print Assumptions lists_automatic.

(** The counts are the lengths of the lists; and both stay as they are when counts or lists are asked for again. *)
Theorem lists_counted os n b : b = after os n ->
  (exists l, fst (input_names b) = Val l /\ fst (input_count b) = Val (length l)) /\
  (exists l, fst (output_names b) = Val l /\ fst (output_count b) = Val (length l) /\
     fst (output_names (step Counts b)) = Val l /\ fst (output_names (step Lists b)) = Val l) /\
  (exists l, fst (pointable_names b) = Val l /\ fst (pointable_count b) = Val (length l)).
Proof.
  intros ->. destruct (after_inv os n) as [[m Hg] _]. set (b := after os n) in *. split_and!.
  - destruct (listed_ok e_setter _ (fun _ => []) _ _ flag_setter Hg) as (? & H1 & _).
    destruct (counted_ok e_setter _ (fun _ => 0%nat) _ _ flag_setter Hg) as (? & H2 & _).
    eexists. unfold input_names, input_count. rewrite H1, H2. cbn [fst]. split; [done|]. by rewrite app_length.
  - destruct (listed_ok e_getter _ auto_names _ _ flag_getter Hg) as (? & H1 & _).
    destruct (counted_ok e_getter _ (fun b => size (b_autos b)) _ _ flag_getter Hg) as (? & H2 & _).
    eexists. unfold output_names at 1, output_count at 1. rewrite H1, H2. cbn [fst]. split_and!; [done| | |].
    + unfold auto_names. by rewrite app_length, fmap_length.
    + cbn [step]. unfold input_count.
      destruct (counted_ok e_setter _ (fun _ => 0%nat) _ _ flag_setter Hg) as (m1 & -> & G1 & E1). cbn [snd].
      unfold output_count.
      destruct (counted_ok e_getter _ (fun b => size (b_autos b)) _ _ flag_getter (conj eq_refl G1 : good (with_man m1 b) m1))
        as (m2 & -> & G2 & E2). cbn [snd].
      unfold pointable_count.
      destruct (counted_ok e_ptr _ (fun _ => 0%nat) _ _ flag_ptr (conj eq_refl G2 : good (with_man m2 (with_man m1 b)) m2))
        as (m3 & -> & G3 & E3). cbn [snd].
      unfold output_names.
      destruct (listed_ok e_getter _ auto_names _ _ flag_getter
        (conj eq_refl G3 : good (with_man m3 (with_man m2 (with_man m1 b))) m3)) as (m4 & -> & _).
      cbn [fst]. by rewrite E3, E2, E1.
    + cbn [step]. unfold input_names.
      destruct (listed_ok e_setter _ (fun _ => []) _ _ flag_setter Hg) as (m1 & -> & G1 & E1). cbn [snd].
      unfold output_names at 2.
      destruct (listed_ok e_getter _ auto_names _ _ flag_getter (conj eq_refl G1 : good (with_man m1 b) m1))
        as (m2 & -> & G2 & E2). cbn [snd].
      unfold pointable_names.
      destruct (listed_ok e_ptr _ (fun _ => []) _ _ flag_ptr (conj eq_refl G2 : good (with_man m2 (with_man m1 b)) m2))
        as (m3 & -> & G3 & E3). cbn [snd].
      unfold read_only_names.
      destruct (listed_ok _ _ (fun _ => []) _ _ flag_unset
        (conj eq_refl G3 : good (with_man m3 (with_man m2 (with_man m1 b))) m3)) as (m4 & -> & G4 & E4). cbn [snd].
      unfold output_names.
      destruct (listed_ok e_getter _ auto_names _ _ flag_getter
        (conj eq_refl G4 : good (with_man m4 (with_man m3 (with_man m2 (with_man m1 b)))) m4)) as (m5 & -> & _).
      cbn [fst]. by rewrite E4, E3, E2, E1.
  - destruct (listed_ok e_ptr _ (fun _ => []) _ _ flag_ptr Hg) as (? & H1 & _).
    destruct (counted_ok e_ptr _ (fun _ => 0%nat) _ _ flag_ptr Hg) as (? & H2 & _).
    eexists. unfold pointable_names, pointable_count. rewrite H1, H2. cbn [fst]. split; [done|]. by rewrite app_length.
Qed.
Print Assumptions lists_counted.

(** The C functions give the names by their index, for every index below the count. *)
Theorem lists_by_index os n b l c i : b = after os n ->
  (fst (input_names b), fst (input_count b)) = (Val l, Val c) \/
  (fst (output_names b), fst (output_count b)) = (Val l, Val c) \/
  (fst (pointable_names b), fst (pointable_count b)) = (Val l, Val c) ->
  (0 <= i < Z.of_nat c)%Z ->
  exists s, l !! Z.to_nat i = Some s /\
    (fst (input_names b) = Val l -> nth_name input_names i b = Val s) /\
    (fst (output_names b) = Val l -> nth_name output_names i b = Val s) /\
    (fst (pointable_names b) = Val l -> nth_name pointable_names i b = Val s).
Proof.
  intros Hb Hl Hi. destruct (lists_counted os n b Hb) as ((l1 & H1 & H2) & (l2 & H3 & H4 & _) & (l3 & H5 & H6)).
  assert (Hc : c = length l).
  { destruct Hl as [Hl|[Hl|Hl]]; [rewrite H1, H2 in Hl|rewrite H3, H4 in Hl|rewrite H5, H6 in Hl]; by inversion Hl. }
  destruct (l !! Z.to_nat i) as [s|] eqn:Es.
  - exists s. split; [done|]. unfold nth_name.
    split_and!; intros ->; rewrite decide_True by lia; by rewrite Es.
  - apply lookup_ge_None in Es. lia.
Qed.
Print Assumptions lists_by_index.

Lemma fortran_list lst cnt b l (w : nat) :
  (exists b1, lst b = (Val l, b1) /\ exists b2, cnt b1 = (Val (length l), b2) /\ fst (lst b2) = Val l) ->
  longest l <> 0%nat ->
  exists bytes, fortran_names lst cnt b = Val (longest l, length l, bytes) /\
    length bytes = (length l * longest l)%nat /\
    Forall2 blank_ended l (elements (length l) (longest l) bytes).
Proof.
  intros (b1 & H1 & b2 & H2 & H3) Hl. unfold fortran_names. rewrite H1, H2, H3, decide_False by done.
  rewrite Nat.div_mul by done. eexists. split; [reflexivity|].
  destruct (elements_pad (longest l) l (longest_le l)) as [H4 H5]. split; [exact H4|].
  unfold packed. rewrite H5. apply Forall2_fmap_r, Forall_Forall2_diag, Forall_forall. intros s _. by eexists.
Qed.

(** From Fortran: the array has as many elements as there are names and is filled exactly, each element being the name
    with blanks after it. *)
Theorem lists_in_fortran os n b : b = after os n ->
  (exists bytes, fortran_names input_names input_count b = Val (longest settable, length settable, bytes) /\
     length bytes = (length settable * longest settable)%nat /\
     Forall2 blank_ended settable (elements (length settable) (longest settable) bytes)) /\
  (exists bytes, fortran_names pointable_names pointable_count b = Val (longest pointable, length pointable, bytes) /\
     length bytes = (length pointable * longest pointable)%nat /\
     Forall2 blank_ended pointable (elements (length pointable) (longest pointable) bytes)) /\
  (exists l bytes, fst (output_names b) = Val l /\
     fortran_names output_names output_count b = Val (longest l, length l, bytes) /\
     length bytes = (length l * longest l)%nat /\ Forall2 blank_ended l (elements (length l) (longest l) bytes)).
Proof.
  intros ->. destruct (after_inv os n) as [[m Hg] _]. set (b := after os n) in *. split_and!.
  - apply (fortran_list _ _ _ _ 0); [|by vm_compute].
    destruct (listed_ok e_setter _ (fun _ => []) _ _ flag_setter Hg) as (m1 & H1 & G1 & E1).
    rewrite collected_setter, app_nil_r in H1. exists (with_man m1 b). split; [exact H1|].
    destruct (counted_ok e_setter _ (fun _ => 0%nat) _ _ flag_setter (conj eq_refl G1 : good (with_man m1 b) m1))
      as (m2 & H2 & G2 & _). rewrite collected_setter, Nat.add_0_r in H2. eexists. split; [exact H2|].
    unfold input_names. destruct (listed_ok e_setter _ (fun _ => []) _ _ flag_setter
      (conj eq_refl G2 : good (with_man m2 (with_man m1 b)) m2)) as (? & -> & _).
    cbn [fst]. by rewrite collected_setter, app_nil_r.
  - apply (fortran_list _ _ _ _ 0); [|by vm_compute].
    destruct (listed_ok e_ptr _ (fun _ => []) _ _ flag_ptr Hg) as (m1 & H1 & G1 & E1).
    rewrite collected_ptr, app_nil_r in H1. exists (with_man m1 b). split; [exact H1|].
    destruct (counted_ok e_ptr _ (fun _ => 0%nat) _ _ flag_ptr (conj eq_refl G1 : good (with_man m1 b) m1))
      as (m2 & H2 & G2 & _). rewrite collected_ptr, Nat.add_0_r in H2. eexists. split; [exact H2|].
    unfold pointable_names. destruct (listed_ok e_ptr _ (fun _ => []) _ _ flag_ptr
      (conj eq_refl G2 : good (with_man m2 (with_man m1 b)) m2)) as (? & -> & _).
    cbn [fst]. by rewrite collected_ptr, app_nil_r.
  - destruct (listed_ok e_getter _ auto_names _ _ flag_getter Hg) as (m1 & H1 & G1 & E1).
    rewrite collected_getter in H1. exists (gettable (headed b) ++ auto_names b).
    assert (Hf : fst (output_names b) = Val (gettable (headed b) ++ auto_names b)).
    { unfold output_names. by rewrite H1. }
    destruct (fortran_list output_names output_count b (gettable (headed b) ++ auto_names b) 0) as (bytes & F1 & F2 & F3);
      [| |by exists bytes].
    + exists (with_man m1 b). split; [exact H1|].
      destruct (counted_ok e_getter _ (fun b => size (b_autos b)) _ _ flag_getter (conj eq_refl G1 : good (with_man m1 b) m1))
        as (m2 & H2 & G2 & E2). rewrite collected_getter, E1 in H2. eexists. split.
      * unfold output_count. rewrite H2. f_equal. f_equal. unfold auto_names.
        by rewrite app_length, fmap_length.
      * unfold output_names. destruct (listed_ok e_getter _ auto_names _ _ flag_getter
          (conj eq_refl G2 : good (with_man m2 (with_man m1 b)) m2)) as (? & -> & _).
        cbn [fst]. by rewrite collected_getter, E2, E1.
    + pose proof (longest_le (gettable (headed b) ++ auto_names b) "Time"%string) as Hle.
      assert (Hin : "Time"%string ∈ gettable (headed b) ++ auto_names b).
      { apply elem_of_app; left. by destruct (headed b); apply (bool_decide_unpack _); vm_compute. }
      specialize (Hle Hin). cbn [String.length] in Hle. lia.
Qed.
Print Assumptions lists_in_fortran.

(** C103, refuted: the lists depend on what was called before. Without any selected output the headings are not listed;
    they are listed from the first time there is one, also after it is gone. *)
Theorem lists_headings_refuted :
  fst (output_names (after [] 0)) = Val (gettable false) /\
  fst (output_names (after [Lists; Tables 1; Tables 0] 0)) = Val (gettable false) /\
  fst (output_names (after [Tables 1; Lists; Tables 0] 0)) = Val (gettable true) /\
  fst (read_only_names (after [] 0)) = Val fixed_only.
Proof. by vm_compute. Qed.
Print Assumptions lists_headings_refuted.
(** C103, refuted: before Initialize the lists and counts follow a null pointer; an index that is negative or not below the
    count reads beyond the list. *)
Theorem lists_unchecked_refuted :
  fst (input_names (create 0)) = Crash /\ fst (output_count (create 0)) = Crash /\
  nth_name input_names 11 (after [] 0) = Crash /\ nth_name input_names (-1) (after [] 0) = Crash /\
  nth_name input_names 10 (after [] 0) = Val "Temperature"%string.
Proof. by vm_compute. Qed.
Print Assumptions lists_unchecked_refuted.

(** A history with automatic variables *)
Example lists_example :
  let b := after [GetV "time"; Find ["solution_ph"] 1; PtrV "Porosity"; Lists]%string 0 in
  b_tables b <> 0%nat /\ fst (output_count b) = Val 24%nat /\ fst (input_count b) = Val 11%nat /\
  fst (pointable_count b) = Val 14%nat /\ nth_name output_names 23 b = Val "solution_ph"%string.
Proof. split_and!; by vm_compute. Qed.

(** ** C104: a call is accepted just if the variable is listed *)
Lemma fixed_known (l : list string) : (forall s, s ∈ l -> s ∈ settable ++ fixed_only) -> forall s, s ∈ l -> exists w, s = var_name w.
Proof. intros H s Hs. by apply fixed_vars, H. Qed.
Lemma gettable_fixed h s : s ∈ gettable h -> s ∈ settable ++ fixed_only.
Proof.
  intros Hs. assert (Hd : forallb (fun s => bool_decide (s ∈ settable ++ fixed_only)) (gettable h) = true)
    by by destruct h; vm_compute.
  rewrite forallb_forall in Hd. apply elem_of_list_In in Hs. apply Hd in Hs. by apply bool_decide_eq_true in Hs.
Qed.
Lemma pointable_fixed s : s ∈ pointable -> s ∈ settable ++ fixed_only.
Proof.
  intros Hs. assert (Hd : forallb (fun s => bool_decide (s ∈ settable ++ fixed_only)) pointable = true) by by vm_compute.
  rewrite forallb_forall in Hd. apply elem_of_list_In in Hs. apply Hd in Hs. by apply bool_decide_eq_true in Hs.
Qed.

(** SetValue is accepted for the names of the input list, in any case, refused as not supported for those of the read-only
    list, and fails for all others; what it does not accept does not change the lists. *)
Theorem set_as_listed os n b name : b = after os n ->
  (known_in name settable /\ fst (set_value name b) = Val tt) \/
  (known_in name fixed_only /\ ~ known_in name settable /\ fst (set_value name b) = Unsupported) \/
  (~ known_in name (settable ++ fixed_only) /\ set_value name b = (Unknown, b)).
Proof.
  intros ->. destruct (after_inv os n) as [[m [Hb Hm]] _]. set (b := after os n) in *.
  unfold set_value, enum. rewrite Hb. destruct (get_enum name) as [v|] eqn:Ev.
  - rewrite call_eq. cbn [fst]. destruct (in_lists v) as (L1 & L2 & _).
    assert (K : forall l, (forall s, s ∈ l -> s ∈ settable ++ fixed_only) -> known_in name l <-> var_name v ∈ l).
    { intros l Hl. apply (known_in_dec_fixed _ _ _ Ev). by apply fixed_known. }
    assert (K1 : known_in name settable <-> var_name v ∈ settable)
      by (apply K; intros s Hs; apply elem_of_app; by left).
    assert (K2 : known_in name fixed_only <-> var_name v ∈ fixed_only)
      by (apply K; intros s Hs; apply elem_of_app; by right).
    destruct (accepts v SetVar) eqn:Ea.
    + left. split; [|done]. by apply K1, L1.
    + right; left. split_and!; [by apply K2, L2| |done]. intros H%K1%L1. done.
  - right; right. split; [|done]. by apply get_enum_none.
Qed.
Print Assumptions set_as_listed.

(** GetValue is accepted for every name of the output list, automatic variables included; and, once there is a
    selected output, for no other. *)
Theorem get_as_listed os n b name l : b = after os n -> fresh os -> fst (output_names b) = Val l ->
  (known_in name l -> fst (get_value name b) = Val tt) /\
  (b_tables b <> 0%nat -> fst (get_value name b) = Val tt -> known_in name l) /\
  (~ known_in name l -> ~ known_in name (settable ++ fixed_only) -> get_value name b = (Unknown, b)).
Proof.
  intros Hb0 Hf Hl. destruct (lists_documented os n b Hb0) as (_ & _ & _ & h & Ho & Hh & _).
  assert (l = gettable h ++ auto_names b) as -> by congruence. clear Ho.
  pose proof (after_inv os n) as [[m [Hb Hm]] Ha]. rewrite <- Hb0 in Hb, Ha. clear Hb0.
  unfold get_value. rewrite Hb.
  assert (Hauto : forall s, s ∈ auto_names b -> b_autos b !! lowered s = Some s /\ s ∈ made os).
  { intros s Hs. unfold auto_names in Hs. apply elem_of_list_fmap in Hs as ([k s'] & -> & Hk%elem_of_map_to_list).
    cbn [snd]. destruct (Ha _ _ Hk) as [<- ?]. done. }
  destruct (get_enum name) as [v|] eqn:Ev.
  - rewrite call_eq. cbn [fst].
    assert (K : forall h, known_in name (gettable h) <-> var_name v ∈ gettable h).
    { intros h'. apply (known_in_dec_fixed _ _ _ Ev). apply fixed_known, gettable_fixed. }
    destruct (in_lists v) as (_ & _ & L3 & _). split_and!.
    + intros (s & [Hs|Hs]%elem_of_app & He).
      * assert (var_name v ∈ gettable true) as ->%L3; [|done]. apply K. exists s. split; [|done].
        destruct h; [done|]. unfold gettable in *. rewrite !elem_of_app in *. destruct Hs as [?|[Hs|?]]; [by left| |by right; right].
        by apply elem_of_nil in Hs.
      * exfalso. destruct (Hauto _ Hs) as [_ Hmade]. apply (Hf _ Hmade). exists (var_name v).
        apply get_enum_some in Ev. split; [|congruence].
        destruct (in_lists v) as (L1 & L2 & _). apply elem_of_app. destruct (accepts v SetVar); [left; by apply L1|right; by apply L2].
    + intros Ht. rewrite (Hh Ht). destruct (accepts v GetVar) eqn:Ea; [|done]. intros _.
      pose proof (proj2 (K true) (proj2 L3 eq_refl)) as (s & ? & ?). exists s. split; [|done]. apply elem_of_app; by left.
    + intros _ Hn. exfalso. apply Hn. exists (var_name v). apply get_enum_some in Ev. split; [|done].
      destruct (in_lists v) as (L1 & L2 & _). apply elem_of_app. destruct (accepts v SetVar); [left; by apply L1|right; by apply L2].
  - cbn [fst]. pose proof (get_enum_none _ Ev) as Hn. split_and!.
    + intros (s & [Hs|Hs]%elem_of_app & He).
      * exfalso. apply Hn. exists s. split; [|done]. by eapply gettable_fixed.
      * destruct (Hauto _ Hs) as [Hk _]. rewrite <- He, Hk. rewrite decide_True; [done|]. by eexists.
    + intros _. case_decide as Hd; [|done]. intros _. destruct Hd as [s Hs]. destruct (Ha _ _ Hs) as [Hk _].
      exists s. split; [|done]. apply elem_of_app; right. unfold auto_names. apply elem_of_list_fmap.
      exists (lowered name, s). split; [done|]. by apply elem_of_map_to_list.
    + intros Hnl _. rewrite decide_False; [done|]. intros [s Hs]. apply Hnl. destruct (Ha _ _ Hs) as [Hk _].
      exists s. split; [|done]. apply elem_of_app; right. unfold auto_names. apply elem_of_list_fmap.
      exists (lowered name, s). split; [done|]. by apply elem_of_map_to_list.
Qed.
Print Assumptions get_as_listed.

(** GetValuePtr gives a pointer just for the names of the list of pointable variables, each time it is asked. *)
Theorem pointer_as_listed os n b name : b = after os n ->
  (known_in name pointable <-> fst (get_value_ptr name b) = Val true) /\
  (known_in name pointable -> fst (get_value_ptr name (snd (get_value_ptr name b))) = Val true) /\
  (~ known_in name pointable -> lowered name <> "components"%string ->
     fst (get_value_ptr name b) = (if decide (is_Some (get_enum name)) then Unsupported else Unknown)).
Proof.
  intros ->. destruct (after_inv os n) as [[m [Hb Hm]] _]. set (b := after os n) in *.
  unfold get_value_ptr, enum. rewrite Hb. destruct (get_enum name) as [v|] eqn:Ev.
  - assert (K : known_in name pointable <-> var_name v ∈ pointable).
    { apply (known_in_dec_fixed _ _ _ Ev). apply fixed_known, pointable_fixed. }
    destruct (in_lists v) as (_ & _ & _ & L4). rewrite L4 in K.
    destruct (e_void (m v)) eqn:Evoid.
    + destruct (Hm v) as (_ & _ & H3). destruct (H3 Evoid) as [Ha Hs]. rewrite Ha, Hs in K. cbn [fst snd].
      split_and!; [by rewrite K| |]; [intros _; by rewrite Hb, Evoid|]. intros Hn. exfalso. by apply Hn, K.
    + rewrite call_eq. cbn [fst snd]. rewrite put_same.
      assert (Hc : e_void (called v GetPtr (b_tables b) (m v)) = accepts v GetPtr && sets_void v).
      { unfold called. destruct (accepts v GetPtr && sets_void v); [done|]. by rewrite begin_void. }
      rewrite Hc. split_and!.
      * rewrite K. by destruct (accepts v GetPtr), (sets_void v).
      * intros Hk%K. destruct (accepts v GetPtr) eqn:Ea; [|done]. destruct (sets_void v) eqn:Es; [|done].
        cbn [b_man with_man]. rewrite put_same, Hc. done.
      * intros Hn Hcomp. rewrite decide_True by by eexists. destruct (accepts v GetPtr) eqn:Ea; [|done].
        destruct (sets_void v) eqn:Es; [exfalso; by apply Hn, K|].
        exfalso. destruct v; try done. apply get_enum_some in Ev. by vm_compute in Ev.
  - cbn [fst snd]. pose proof (get_enum_none _ Ev) as Hn.
    assert (Hp : ~ known_in name pointable).
    { intros (s & Hs & He). apply Hn. exists s. split; [|done]. by apply pointable_fixed. }
    split_and!; [by split| done|]. intros _ _. rewrite decide_False; [done|]. by intros [? ?].
Qed.
Print Assumptions pointer_as_listed.

(** GetVarType, GetVarUnits, GetVarItemsize and GetVarNbytes have an answer just for the names in one of the lists. *)
Theorem info_as_listed os n b name : b = after os n ->
  (known_in name (settable ++ fixed_only ++ auto_names b) <-> fst (get_var_info name b) = Val tt) /\
  (~ known_in name (settable ++ fixed_only ++ auto_names b) -> get_var_info name b = (Unknown, b)).
Proof.
  intros ->. destruct (after_inv os n) as [[m [Hb Hm]] Ha]. set (b := after os n) in *.
  unfold get_var_info. rewrite Hb. destruct (get_enum name) as [v|] eqn:Ev; cbn [fst].
  - assert (K : known_in name (settable ++ fixed_only ++ auto_names b)).
    { exists (var_name v). apply get_enum_some in Ev. split; [|done]. destruct (in_lists v) as (L1 & L2 & _).
      rewrite !elem_of_app. destruct (accepts v SetVar); [left; by apply L1|right; left; by apply L2]. }
    done.
  - pose proof (get_enum_none _ Ev) as Hn.
    assert (K : known_in name (settable ++ fixed_only ++ auto_names b) <-> is_Some (b_autos b !! lowered name)).
    { split.
      - intros (s & Hs & He). rewrite app_assoc in Hs. apply elem_of_app in Hs as [Hs|Hs]; [exfalso; apply Hn; by exists s|].
        unfold auto_names in Hs. apply elem_of_list_fmap in Hs as ([k s'] & -> & Hk%elem_of_map_to_list).
        destruct (Ha _ _ Hk) as [-> _]. cbn [snd] in He. rewrite <- He. by eexists.
      - intros [s Hs]. destruct (Ha _ _ Hs) as [Hk _]. exists s. split; [|done]. rewrite !elem_of_app. right; right.
        unfold auto_names. apply elem_of_list_fmap. exists (lowered name, s). split; [done|]. by apply elem_of_map_to_list. }
    rewrite K. case_decide; naive_solver.
Qed.
Print Assumptions info_as_listed.

(** C104, refuted: GetValue of the headings works though they are not listed; GetValuePtr of the components is not refused
    but gives a null pointer; a listed automatic variable is unknown to SetValue and GetValuePtr, instead of not
    supported, and is missing from the read-only list. *)
Theorem listed_refuted :
  (fst (get_value "SelectedOutputHeadings" (after [] 0)) = Val tt /\
   fst (output_names (after [] 0)) = Val (gettable false) /\ ~ known_in "SelectedOutputHeadings" (gettable false)) /\
  (fst (get_value_ptr "Components" (after [] 0)) = Val false /\ ~ known_in "Components" pointable) /\
  (let b := after [Find ["solution_ph"] 1] 0 in
   fst (output_names b) = Val (gettable true ++ ["solution_ph"])%list /\ fst (set_value "solution_ph" b) = Unknown /\
   fst (get_value_ptr "solution_ph" b) = Unknown /\ fst (read_only_names b) = Val fixed_only)%string.
Proof.
  split_and!; try by vm_compute.
  - intros (s & Hs & He). assert (Hd : forallb (fun s => negb (String.eqb (lowered s) (lowered "SelectedOutputHeadings")))
      (gettable false) = true) by by vm_compute.
    rewrite forallb_forall in Hd. apply elem_of_list_In in Hs. apply Hd in Hs. rewrite He, String.eqb_refl in Hs. done.
  - intros (s & Hs & He). assert (Hd : forallb (fun s => negb (String.eqb (lowered s) (lowered "Components")))
      pointable = true) by by vm_compute.
    rewrite forallb_forall in Hd. apply elem_of_list_In in Hs. apply Hd in Hs. rewrite He, String.eqb_refl in Hs. done.
Qed.
Print Assumptions listed_refuted.
(** C104, refuted: before Initialize GetValue follows a null pointer, while SetValue and GetValuePtr fail. *)
Theorem uninitialized_refuted name :
  fst (get_value name (create 0)) = Crash /\ set_value name (create 0) = (Unknown, create 0) /\
  get_value_ptr name (create 0) = (Unknown, create 0).
Proof. done. Qed.
Print Assumptions uninitialized_refuted.

Example listed_example :
  let os := [Find ["solution_ph"] 1; Refresh Porosity RMUpdate; Counts]%string in
  fresh os /\ fst (get_value "Solution_pH" (after os 0)) = Val tt /\ fst (set_value "POROSITY" (after os 0)) = Val tt /\
  fst (get_value_ptr "gfw" (after os 0)) = Val true /\ fst (set_value "gfw" (after os 0)) = Unsupported /\
  fst (get_value_ptr "densityuser" (after os 0)) = Unsupported /\ never_tables [Find ["solution_ph"] 0]%string.
Proof.
  split_and!; try by vm_compute.
  - intros s Hs. apply elem_of_list_singleton in Hs as ->. apply get_enum_none. by vm_compute.
  - intros o [->|[]%elem_of_nil]%elem_of_cons. done.
Qed.
