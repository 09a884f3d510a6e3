(** Properties C28, C29, C30: the dictionary and name lists. *)
From Coq Require Import Ascii String Sorting.Sorted QArith.
From stdpp Require Import prelude strings.
From Verif.Base Require Import Result.
From Verif.Names Require Import Model Spec Proofs.
Local Open Scope nat_scope.
Local Open Scope string_scope.

(** ** C28 *)

(** Every sequence of lookups, starting from the empty dictionary, answers with numbers that
    identify the words: equal words get equal numbers and different words different numbers. The
    numbers are exactly 0, 1, ... without a gap and index the word list. *)
Theorem dictionary_indices (ss : list string) :
  let ids := fst (lookups ss empty_dict) in
  let d := snd (lookups ss empty_dict) in
  length ids = length ss /\
  (forall i j s t a b, ss !! i = Some s -> ss !! j = Some t -> ids !! i = Some a -> ids !! j = Some b ->
     (a = b <-> s = t)) /\
  (forall k, k < length (d_words d) <-> k ∈ ids) /\
  (forall i s a, ss !! i = Some s -> ids !! i = Some a -> d_words d !! a = Some s).
Proof.
  intros ids d. destruct (lookups_spec ss empty_dict empty_dict_ok) as (H1 & _ & H3 & H4).
  fold ids d in H1, H3, H4. pose proof (dict_ok_nodup d H1) as Hn.
  assert (Hl : length ids = length ss) by (symmetry; by eapply Forall2_length).
  assert (Hw : forall i s a, ss !! i = Some s -> ids !! i = Some a -> d_words d !! a = Some s).
  { intros i s a Hs Ha. by apply (Forall2_lookup_lr _ _ _ i s a H3). }
  split_and!; [done| | |done].
  - intros i j s t a b Hs Ht Ha Hb. pose proof (Hw _ _ _ Hs Ha) as E1. pose proof (Hw _ _ _ Ht Hb) as E2.
    split; [intros ->; congruence|intros ->]. by eapply NoDup_lookup.
  - intros k. split.
    + intros Hk. apply lookup_lt_is_Some in Hk as [w Hk].
      assert (Hin : w ∈ d_words d) by by eapply elem_of_list_lookup_2.
      apply H4 in Hin as [?%elem_of_nil|Hin]; [done|]. apply elem_of_list_lookup in Hin as [i Hi].
      destruct (lookup_lt_is_Some_2 ids i) as [a Ha]; [rewrite Hl; by eapply lookup_lt_Some|].
      pose proof (Hw _ _ _ Hi Ha) as E. assert (a = k) as <- by by eapply NoDup_lookup.
      by eapply elem_of_list_lookup_2.
    + intros Hk. apply elem_of_list_lookup in Hk as [i Ha].
      destruct (lookup_lt_is_Some_2 ss i) as [s Hs]; [rewrite <- Hl; by eapply lookup_lt_Some|].
      eapply lookup_lt_Some, Hw; done.
Qed.
Print Assumptions dictionary_indices.

(** Later lookups never renumber a word. *)
Theorem dictionary_stable (ss more : list string) k w :
  d_words (snd (lookups ss empty_dict)) !! k = Some w ->
  d_words (snd (lookups (ss ++ more) empty_dict)) !! k = Some w.
Proof.
  intros H. assert (E : forall d, snd (lookups (ss ++ more) d) = snd (lookups more (snd (lookups ss d)))).
  { clear H. induction ss as [|s ss IH]; intros d; [done|]. simpl. apply IH. }
  rewrite E. eapply prefix_lookup; [exact H|].
  apply lookups_spec, lookups_spec, empty_dict_ok.
Qed.
Print Assumptions dictionary_stable.

(** The dictionary rebuilt from the text is the same dictionary. *)
Theorem dictionary_text (ss : list string) :
  Forall printable ss ->
  dict_of_text (d_text (snd (lookups ss empty_dict))) = snd (lookups ss empty_dict).
Proof.
  intros H. destruct (lookups_spec ss empty_dict empty_dict_ok) as (H1 & _ & _ & H4).
  apply dict_rebuild; [done|]. apply Forall_forall. intros w Hw. apply H4 in Hw as [?%elem_of_nil|Hw]; [done|].
  rewrite Forall_forall in H. by apply H.
Qed.
Print Assumptions dictionary_text.

Example dictionary_example :
  fst (lookups ["Ca"; ""; "Cl"; "Ca"; ""] empty_dict) = [0; 1; 2; 0; 1] /\
  dict_of_text (d_text (snd (lookups ["Ca"; ""; "Cl"; "Ca"; ""] empty_dict))) =
  snd (lookups ["Ca"; ""; "Cl"; "Ca"; ""] empty_dict).
Proof. split; vm_compute; reflexivity. Qed.

(** The guard is needed: a word with a newline is read as two words, and a word of 256 characters
    ends the reading. *)
Theorem dictionary_text_newline_refuted :
  d_words (dict_of_text (d_text (snd (lookups ["a" ++ String newline "b"] empty_dict)))) = ["a"; "b"].
Proof. vm_compute. reflexivity. Qed.
Print Assumptions dictionary_text_newline_refuted.
Fixpoint rep (n : nat) : string := match n with 0 => "" | S m => String "x" (rep m) end.
Theorem dictionary_text_long_refuted :
  d_words (dict_of_text (d_text (snd (lookups [rep 256; "b"] empty_dict)))) = [] /\
  d_words (dict_of_text (d_text (snd (lookups [rep 255; "b"] empty_dict)))) = [rep 255; "b"].
Proof. split; vm_compute; reflexivity. Qed.
Print Assumptions dictionary_text_long_refuted.

(** Encoding a name list behind any earlier data, with any dictionary already in use, and decoding
    it at that position with the same dictionary or a later one gives the same list and leaves the
    cursors just behind it, whatever data follows. *)
Theorem name_list_codec {V} (before_words : list string) (l : nmap V) ints dbl d' ints' dbl' :
  ordered l -> (forall v, amount l "" v -> False) ->
  nd_serialize l (snd (lookups before_words empty_dict)) ints dbl = (d', ints', dbl') ->
  forall later_words si sd,
    nd_deserialize (snd (lookups later_words d')) (ints' ++ si) (dbl' ++ sd) (length ints) (length dbl) =
    Ret (l, length ints', length dbl').
Proof.
  intros Ho Hne E later si sd.
  destruct (lookups_spec before_words empty_dict empty_dict_ok) as (H1 & _).
  destruct (codec_roundtrip l _ ints dbl d' ints' dbl' H1 Ho) as (H2 & _ & H3); [|done|].
  { intros n v Hin ->. by apply (Hne v). }
  apply H3. by apply lookups_spec.
Qed.
Print Assumptions name_list_codec.

Example name_list_example :
  let d := snd (lookups ["H"; "Cl"] empty_dict) in
  match nd_serialize [("Ca", 1); ("Cl", 2); ("Na", 3)] d [7%Z] [] with
  | (d', ints, dbl) =>
      ints = [7; 3; 2; 1; 3]%Z /\ dbl = [1; 2; 3] /\
      nd_deserialize d' ints dbl 1 0 = Ret ([("Ca", 1); ("Cl", 2); ("Na", 3)], 5, 3)
  end.
Proof. vm_compute. auto. Qed.

(** An empty name loses its amount and shifts the amounts of all following names. *)
Theorem name_list_codec_empty_refuted :
  match nd_serialize [("", 1); ("Ca", 2); ("Cl", 3)] empty_dict [] [] with
  | (d', ints, dbl) => nd_deserialize d' ints dbl 0 0 = Ret ([("Ca", 1); ("Cl", 2)], 4, 2)
  end.
Proof. vm_compute. reflexivity. Qed.
Print Assumptions name_list_codec_empty_refuted.

(** ** C29 *)

(** Simplify_redox: the result lists by increasing name exactly the elements other than H, O and
    Charge that occur; each element's amount is the sum of the amounts of all its names. The sum
    is the one obtained by adding in name order, so the statement holds for rounded addition too. *)
Theorem simplify_redox_sums {V} (zero : V) (add : V -> V -> V) (l : nmap V) :
  ordered l -> (forall n v, amount l n v -> wf_name n) ->
  ordered (simplify_redox zero add l) /\
  forall e y, amount (simplify_redox zero add l) e y <->
    e <> "H" /\ e <> "O" /\ e <> "Charge" /\
    (exists n v, amount l n v /\ element n = e) /\ y = element_sum zero add l e.
Proof.
  intros Ho Hw. split; [by apply simplify_ordered|]. intros e y. by apply simplify_elem.
Qed.
Print Assumptions simplify_redox_sums.

(** Get_total_element gives the same sums. *)
Theorem total_element_sums {V} (zero : V) (add : V -> V -> V) (l : nmap V) e :
  total_element zero add e l = element_sum zero add l e.
Proof. apply total_element_spec. Qed.
Print Assumptions total_element_sums.

(** A list that has no valence states, H, O or Charge is left alone. *)
Theorem simplify_redox_plain {V} (zero : V) (add : V -> V -> V) (l : nmap V) :
  (forall x, add zero x = x) -> ordered l ->
  (forall n v, amount l n v -> plain n /\ ~ valence n /\ n <> "H" /\ n <> "O" /\ n <> "Charge") ->
  simplify_redox zero add l = l.
Proof. apply simplify_plain. Qed.
Print Assumptions simplify_redox_plain.

Definition sulfur : nmap nat :=
  [("C(-4)", 1); ("C(4)", 2); ("Ca", 3); ("H(0)", 4); ("S", 5); ("S(-2)", 6); ("S(6)", 7); ("[13C](4)", 8)].
Lemma sulfur_ordered : ordered sulfur.
Proof. apply ordb_ordered. vm_compute. reflexivity. Qed.
Lemma sulfur_wf n v : amount sulfur n v -> wf_name n.
Proof.
  unfold amount, sulfur. rewrite !elem_of_cons, elem_of_nil.
  intros H. unfold wf_name. destruct_or!; try done; injection H as -> ->;
    (split; [vm_compute; tauto|vm_compute; (by left) || (right; lia)]).
Qed.
Example simplify_example :
  simplify_redox 0 Nat.add sulfur = [("C", 3); ("Ca", 3); ("S", 18); ("[13C]", 8)].
Proof. vm_compute. reflexivity. Qed.

(** Names with a character below the parenthesis break the parallel walk: the amount of the valence
    state is dropped. *)
Theorem simplify_redox_names_refuted :
  simplify_redox 0 Nat.add [("Fe", 1); ("Fe#x", 5); ("Fe(2)", 2)] = [("Fe", 1); ("Fe#x", 5)].
Proof. vm_compute. reflexivity. Qed.
Print Assumptions simplify_redox_names_refuted.

(** ** C30 *)

(** merge_redox, under the exact condition in which it does what it is meant to do: no total given
    by valence state meets an older bare total of its element, nor an entry whose name is the
    element without its last letter. *)
Theorem merge_redox_guarded {V} (l src : nmap V) :
  ordered l -> ordered src -> no_double src -> merge_guard l src ->
  (forall n v, amount (merge_redox l src) n v <->
     amount src n v \/
     (amount l n v /\ ~ named src n /\ forall m x, amount src m x -> ~ replaces m n)) /\
  (no_double l -> no_double (merge_redox l src)).
Proof.
  intros Hl Hs Hd Hg. split; [by apply merge_spec|by apply merge_no_double].
Qed.
Print Assumptions merge_redox_guarded.

(** In particular totals given by bare element always replace the valence states. *)
Theorem merge_redox_bare {V} (l src : nmap V) :
  ordered l -> ordered src -> (forall m x, amount src m x -> ~ valence m) ->
  (forall n v, amount (merge_redox l src) n v <->
     amount src n v \/ (amount l n v /\ ~ named src (element n))) .
Proof.
  intros Hl Hs Hb n v.
  assert (Hd : no_double src) by (intros a b c Ha Hv; by apply Hb in Ha).
  assert (Hg : merge_guard l src) by (intros a b Ha Hv; by apply Hb in Ha).
  unfold amount. rewrite merge_spec by done. split.
  - intros [?|(H1 & H2 & H3)]; [by left|]. right. split; [done|]. intros [w Hw].
    destruct (decide (element n = n)) as [E|E]; [apply H2; exists w; by rewrite E in Hw|].
    apply (H3 _ _ Hw). right. split_and!; [by eapply Hb|done..].
  - intros [?|[H1 H2]]; [by left|]. right. split_and!; [done| |].
    + intros [w Hw]. apply H2. exists w. pose proof (Hb _ _ Hw) as Hnv. unfold valence in Hnv.
      destruct (decide (element n = n)) as [E|E]; [by rewrite E|tauto].
    + intros m x Hm [[Hv _]|(_ & _ & E)]; [by apply (Hb m x)|]. apply H2. exists x. by rewrite E.
Qed.
Print Assumptions merge_redox_bare.

(** But a total given by valence state never removes the bare total of its element: every such
    element is counted twice. *)
Theorem merge_redox_counts_twice_refuted {V} (l : nmap V) m x w :
  ordered l -> valence m -> element m <> "" -> amount l (element m) w ->
  amount (merge_redox l [(m, x)]) m x /\ amount (merge_redox l [(m, x)]) (element m) w /\
  ~ no_double (merge_redox l [(m, x)]).
Proof.
  intros Hl Hv He Hin. destruct (merge_keeps_bare l m x w Hl Hv He Hin) as [H1 H2].
  split_and!; [done..|]. intros Hn. by apply (Hn m x w).
Qed.
Print Assumptions merge_redox_counts_twice_refuted.

(** Instead it removes the element whose name is one letter shorter: giving ferrous iron deletes
    fluorine, giving a calcium valence state deletes carbon. *)
Theorem merge_redox_deletes_refuted :
  merge_redox [("F", 1); ("Fe", 2); ("Na", 3)] [("Fe(2)", 9)] = [("Fe", 2); ("Fe(2)", 9); ("Na", 3)] /\
  merge_redox [("Na", 3)] [("F", 7); ("Fe(2)", 9)] = [("Fe(2)", 9); ("Na", 3)].
Proof. split; vm_compute; reflexivity. Qed.
Print Assumptions merge_redox_deletes_refuted.

Example merge_guard_example :
  merge_redox [("C(4)", 1); ("Ca", 2); ("S(-2)", 4)] [("C", 5); ("S(6)", 6)] =
    [("C", 5); ("Ca", 2); ("S(-2)", 4); ("S(6)", 6)] /\
  merge_guard [("C(4)", 1); ("Ca", 2); ("S(-2)", 4)] [("C", 5); ("S(6)", 6)].
Proof.
  split; [vm_compute; reflexivity|]. intros m x Hin Hv.
  rewrite !elem_of_cons, elem_of_nil in Hin. destruct Hin as [[= -> ->]|[[= -> ->]|[]]].
  { exfalso. by apply Hv. }
  split_and!; [by vm_compute|..]; intros [w Hw]; rewrite !elem_of_cons, elem_of_nil in Hw;
    vm_compute in Hw; destruct_or!; done.
Qed.
Example merge_twice_example :
  merge_redox [("S", 5)] [("S(6)", 1)] = [("S", 5); ("S(6)", 1)].
Proof. vm_compute. reflexivity. Qed.
