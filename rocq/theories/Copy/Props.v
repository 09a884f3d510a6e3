(** First lines, definitions for ranges, and COPY: the property theorems. *)
From Coq Require Import String Ascii ZArith Lia.
From stdpp Require Import prelude strings pretty gmap.
From Verif.Base Require Import Result.
From Verif.Raw Require Import Model.
From Verif.Delete Require Import Model Spec Proofs Props.
From Verif.Copy Require Import Model Spec Proofs.
Local Open Scope string_scope.

(** * C100 Both readers read a first line as it is written *)

Theorem heading_as_written r d line : headed r d line -> ints r ->
  from_parser line = Heading (lowest r) (highest r) d /\ from_string line = Ret (Heading (lowest r) (highest r) d).
Proof. intros H1 H2. split; [by apply parser_headed|by apply string_headed]. Qed.
Theorem heading_unnumbered d line : unnumbered d line ->
  from_parser line = Heading 1 1 d /\ from_string line = Ret (Heading 1 1 d).
Proof. apply both_unnumbered. Qed.
(** What a dump writes is read back, by either reader. *)
Theorem heading_dumped indent key n d : blanks indent -> solid key -> key <> "" -> is_int n -> tidy d ->
  from_parser (dumped indent key n d) = Heading n n d /\ from_string (dumped indent key n d) = Ret (Heading n n d).
Proof.
  intros H0 Hk Hn Hi Hd. apply (heading_as_written (One n)); [|done].
  exists indent, key, " ", " ". split_and!; try done. by right.
Qed.
(** A descending range is its first number alone, while DELETE takes all between. *)
Theorem heading_descending_refuted a b d line it : headed (Span a b) d line -> fits (Span a b) -> (b < a)%Z ->
  from_string line = Ret (Heading a a d) /\ from_parser line = Heading a a d /\
  exists it', augment (span_text (Span a b)) it = Ret it' /\ forall n, (b <= n <= a)%Z -> n ∈ numbers it'.
Proof.
  intros H1 H2 H3. destruct (heading_as_written (Span a b) d line) as [Ha Hb]; [done|by destruct H2 as (? & ? & _)|].
  cbn [lowest highest] in *. rewrite Z.max_l in * by lia. split; [done|]. split; [done|].
  destruct (range_as_written (Span a b) it H2) as (it' & E1 & _ & E3). exists it'. split; [done|]. intros n Hn.
  apply E3. left. cbn [within]. lia.
Qed.
(** Other lines: the readers differ. *)
Theorem heading_readers_refuted :
  (* a description that begins with a digit is taken for the number, and one reader drops its first word *)
  from_parser "EXCHANGE_RAW 2nd water" = Heading 2 2 "nd water" /\ from_string "EXCHANGE 2nd water" = Ret (Heading 2 2 "water") /\
  (* with a dash: the number is 0 and the description is lost, or the number is 1 and its first word is lost *)
  from_parser "EXCHANGE_RAW -deep water" = Heading 0 0 "" /\ from_string "EXCHANGE -deep water" = Ret (Heading 1 1 "water") /\
  (* with a point *)
  from_parser "EXCHANGE_RAW .5 m deep" = Heading 1 1 ".5 m deep" /\ from_string "EXCHANGE .5 m deep" = Ret (Heading 1 1 "m deep") /\
  (* a blank after the dash *)
  from_parser "EXCHANGE_RAW 5- 7" = Heading 5 7 "" /\ from_string "EXCHANGE 5- 7" = Ret (Heading 5 5 "7") /\
  (* a range without its end *)
  from_parser "EXCHANGE_RAW -4-" = Heading (-4) 1 "" /\ from_string "EXCHANGE -4-" = Ret (Heading (-4) (-4) "") /\
  (* a number that is no int *)
  from_parser "EXCHANGE_RAW 4294967297 old" = Heading int_max int_max "" /\ from_string "EXCHANGE 4294967297 old" = UB.
Proof. by vm_compute. Qed.
Print Assumptions heading_as_written.
Print Assumptions heading_unnumbered.
Print Assumptions heading_dumped.
Print Assumptions heading_descending_refuted.
Print Assumptions heading_readers_refuted.

Example heading_written_applies : headed (Span (-3) 12) "rain water" "  SOLUTION -3-12 	rain water" /\ ints (Span (-3) 12) /\
  unnumbered "rain" "SOLUTION rain" /\ headed (Span 9 3) "" "MIX 9-3".
Proof.
  split_and!; try (unfold ints, is_int; lia).
  - exists "  ", "SOLUTION", " ", " 	". split_and!; try done. by right.
  - exists "", "SOLUTION", " ". split_and!; try done. by right.
  - exists "", "MIX", " ", "". split_and!; try done. by left.
Qed.

(** * C101 A definition for a range defines every number of it *)

Section C101.
Context {A : Type}.
Implicit Types (m : gmap Z (numbered A)) (e : numbered A).
Theorem define_range e m s : (num_end e < int_max)%Z ->
  exists m' s', rxn_read_raw e 0 m s = Ret (m', s') /\ m' !! num e = Some e /\
    (forall n, (num e < n <= num_end e)%Z -> m' !! n = Some (Num n n (body e))) /\
    (forall n, n <> num e -> ~ (num e < n <= num_end e)%Z -> m' !! n = m !! n) /\
    forall n, n ∈ s' <-> (num e <= n <= num_end e)%Z \/ n ∈ s.
Proof.
  intros He. unfold rxn_read_raw. cbn zeta.
  destruct (copies_found (num e) (num_end e) e (<[num e := e]> m)) as (m' & -> & H); [apply lookup_insert|done|].
  cbn [obind]. rewrite decide_False by lia. eexists _, _. split; [done|]. split_and!.
  - rewrite H, decide_False by lia. apply lookup_insert.
  - intros n Hn. by rewrite H, decide_True.
  - intros n Hn1 Hn2. rewrite H, decide_False by done. by apply lookup_insert_ne.
  - intros n. by rewrite elem_of_union, elem_range.
Qed.
(** With errors nothing is stored, but an older entity of the first number is copied over the others. *)
Theorem define_failed e errors m s : (num_end e < int_max)%Z -> errors <> 0 ->
  exists m' s', rxn_read_raw e errors m s = Ret (m', s') /\
    (m !! num e = None -> m' = m) /\
    forall e0, m !! num e = Some e0 -> forall n,
      m' !! n = if decide (num e < n <= num_end e)%Z then Some (Num n n (body e0)) else m !! n.
Proof.
  intros He Hr. unfold rxn_read_raw. destruct errors as [|k]; [done|]. cbn zeta.
  destruct (m !! num e) as [e0|] eqn:Em.
  - destruct (copies_found (num e) (num_end e) e0 m Em He) as (m' & -> & H). cbn [obind]. rewrite decide_False by lia.
    eexists _, _. split; [done|]. split; [done|]. intros e1 [= <-]. done.
  - unfold rxn_copies. rewrite Em. assert ((if decide (num_end e <= num e)%Z then Ret m else Ret m) = Ret m) as -> by (by case_decide).
    cbn [obind]. rewrite decide_False by lia. eexists _, _. split; [done|]. done.
Qed.
(** The largest int does not do, not even as the only number. *)
Theorem define_largest_refuted e errors m s : num_end e = int_max -> rxn_read_raw e errors m s = UB.
Proof.
  intros He. unfold rxn_read_raw. cbn zeta. set (m1 := match errors with 0 => _ | S _ => m end). clearbody m1.
  assert ((exists m2, rxn_copies (num e) (num_end e) m1 = Ret m2) \/ rxn_copies (num e) (num_end e) m1 = UB) as [[m2 ->]| ->].
  { unfold rxn_copies. case_decide; [eauto|]. destruct (m1 !! num e); [|eauto]. case_decide; eauto. }
  - cbn [obind]. by rewrite decide_True.
  - done.
Qed.
End C101.
(** From the line: a number, a range or a descending range *)
Theorem define_headed r d line {B} (b : B) (m : gmap Z (numbered (string * B))) s : headed r d line -> ints r -> (highest r < int_max)%Z ->
  let h := from_parser line in
  exists m' s', rxn_read_raw (Num (n_user h) (n_user_end h) (description h, b)) 0 m s = Ret (m', s') /\
    (forall n, (lowest r <= n <= highest r)%Z -> exists e, m' !! n = Some e /\ num e = n /\ body e = (d, b)) /\
    (forall n, ~ (lowest r <= n <= highest r)%Z -> m' !! n = m !! n).
Proof.
  intros H1 H2 H3. rewrite (parser_headed r d line H1 H2). cbn zeta. cbn [n_user n_user_end description].
  assert (lowest r <= highest r)%Z as Hl by (destruct r; cbn; lia).
  destruct (define_range (Num (lowest r) (highest r) (d, b)) m s) as (m' & s' & E1 & E2 & E3 & E4 & _); [done|].
  cbn [num num_end body] in *. exists m', s'. split; [done|]. split.
  - intros n Hn. destruct (decide (n = lowest r)) as [->|Hne]; [eexists; split; [done|done]|].
    eexists. split; [apply E3; lia|done].
  - intros n Hn. apply E4; lia.
Qed.
(** A range with errors in it replaces what was defined well. *)
Theorem define_failed_refuted :
  exists (m m' : gmap Z (numbered string)) s', rxn_read_raw (Num 1 3 "wrong") 1 m ∅ = Ret (m', s') /\
    m !! 2%Z = Some (Num 2 2 "clay") /\ m' !! 2%Z = Some (Num 2 2 "sand") /\ m' !! 1%Z = m !! 1%Z.
Proof.
  destruct (define_failed (Num 1 3 "wrong") 1 (<[1%Z := Num 1 1 "sand"]> {[2%Z := Num 2 2 "clay"]}) ∅) as (m' & s' & E1 & _ & E3);
    [by cbn|done|]. eexists _, m', s'. split; [exact E1|]. cbn [num num_end] in E3.
  specialize (E3 (Num 1 1 "sand") (lookup_insert _ _ _)).
  split; [by rewrite lookup_insert_ne, lookup_singleton by done|]. rewrite !E3.
  rewrite decide_True by lia. rewrite decide_False by lia. done.
Qed.
Print Assumptions define_range.
Print Assumptions define_headed.
Print Assumptions define_failed.
Print Assumptions define_largest_refuted.
Print Assumptions define_failed_refuted.

Example define_headed_applies : headed (Span 4 6) "sand" "EXCHANGE_RAW 4-6 sand" /\ ints (Span 4 6) /\ (highest (Span 4 6) < int_max)%Z.
Proof.
  split_and!; try (unfold ints, is_int; lia); [|by cbn]. exists "", "EXCHANGE_RAW", " ", " ". split_and!; try done. by right.
Qed.

(** * C102 COPY copies what is asked for *)

Section C102.
Context {E : kind -> Type}.
Implicit Types (t : stores E) (s : engine E).

Lemma run_orders os bs b react s t : Forall sound_order os -> os <> [] -> (forall k, waiting s k = []) ->
  read_blocks bs (doomed s) = Ret (b, true) -> react (stored s) = Some t ->
  exists t', all_obeyed os t t' /\ simulation (map order_line os) bs react s =
    Ret (Engine no_requests false (delete_entities b t').1 (delete_entities b t').2, true).
Proof.
  intros Ho Hn Hw Hb Ht. destruct (read_orders os Ho (waiting s)) as (c & Hc & Hk).
  destruct (copy_all os c t) as (t' & H1 & H2); [done|intros k; by rewrite Hk, Hw|].
  exists t'. split; [done|]. unfold simulation. rewrite Hc. cbn [obind]. rewrite Hb. cbn [obind fst snd andb].
  rewrite Ht. destruct os as [|o os]; [done|]. cbn [map]. rewrite H1. reflexivity.
Qed.
(** Any COPY lines, in any order, over any contents: each is obeyed after the one before it. *)
Theorem copy_as_asked os react s t : Forall sound_order os -> os <> [] -> at_rest s -> react (stored s) = Some t ->
  exists s', simulation (map order_line os) [] react s = Ret (s', true) /\ at_rest s' /\ all_obeyed os t (stored s').
Proof.
  intros Ho Hn (Hw & _ & Hi) Ht. destruct (run_orders os [] (doomed s) react s t) as (t' & H1 & H2); [done|done|done|done|done|].
  eexists. split; [exact H2|]. split; [done|]. cbn [stored]. clear H2 Ht Hn Ho Hw.
  assert (forall k, (delete_entities (doomed s) t').2 k = t' k) as Hq by (intros k; cbn [delete_entities snd]; by rewrite Hi).
  induction H1 as [t f Hff|o os t t1 f Hob Hos IH]; [constructor; intros k; by rewrite Hq, Hff|].
  econstructor; [done|]. by apply IH.
Qed.
(** COPY comes before DELETE, whatever their order in the input. *)
Theorem copy_then_delete os rs react s t : Forall sound_order os -> os <> [] -> Forall sound_request rs -> at_rest s ->
  react (stored s) = Some t ->
  exists s' t', simulation (map order_line os) [block_of rs] react s = Ret (s', true) /\ at_rest s' /\ all_obeyed os t t' /\
    forall k n, (gone rs k n -> stored s' k !! n = None) /\ (~ gone rs k n -> stored s' k !! n = t' k !! n).
Proof.
  intros Ho Hn Hr (Hw & _ & Hi) Ht.
  destruct (run_orders os [block_of rs] (settle (foldl do_request (Lists (items (doomed s)) off) rs)) react s t) as (t' & H1 & H2);
    [done|done|done|cbn [read_blocks]; by rewrite read_block|done|].
  eexists _, t'. split; [exact H2|].
  destruct (deleted_of (settle (foldl do_request (Lists (items (doomed s)) off) rs)) t' rs) as [H3 H4].
  { intros k n. apply (settled rs (Lists (items (doomed s)) off)); done. }
  split; [done|]. split; [done|]. exact H4.
Qed.
(** Moving a cell: COPY cell i j and DELETE; -cells i *)
Theorem copy_moves_cell i j react s t : is_int i -> is_int j -> j <> (-1)%Z -> i <> j -> at_rest s -> react (stored s) = Some t ->
  exists s', simulation [CopyLine None (pretty i) (pretty j)] [delete_cell_text i] react s = Ret (s', true) /\ at_rest s' /\
    forall k, stored s' k !! i = None /\
      (forall e, t k !! i = Some e -> stored s' k !! j = Some (Num j j (body e))) /\
      (t k !! i = None -> stored s' k !! j = t k !! j) /\
      forall n, n <> i -> n <> j -> stored s' k !! n = t k !! n.
Proof.
  intros Hi Hj Hj1 Hij Hs Ht.
  destruct (copy_then_delete [Order None i (One j)] [Delete.Spec.Request "cell" Of_cells [One i] []] react s t)
    as (s' & t' & H1 & H2 & H3 & H4); [| |  |done|done|].
  { apply Forall_singleton. split_and!; [done|done|]. cbn. lia. }
  { done. }
  { apply Forall_singleton. split_and!; [by left|by apply Forall_singleton|by constructor]. }
  exists s'. split; [exact H1|]. split; [done|].
  assert (forall k n, gone [Delete.Spec.Request "cell" Of_cells [One i] []] k n <-> n = i) as Hg.
  { intros k n. unfold gone, all_of, mentioned, listed. setoid_rewrite elem_of_list_singleton. split.
    - intros [[_ H]|[[(r & -> & ?) _]|(x & [(r & -> & ? & _)|(r & -> & _ & Hx)] & Hw)]]; [|done|done|].
      + exfalso. eapply H. eexists. split; [done|]. split; [done|]. left.
      + apply elem_of_list_singleton in Hx as ->. done.
    - intros ->. right. right. exists (One i). split; [right|done]. eexists. split; [done|]. split; [done|]. left. }
  inversion H3 as [|o os t0 t1 tx Hob Hrest]; subst. inversion Hrest as [t0 tx Heq|]; subst.
  assert (forall k n, t' k !! n = if decide (n = j) then match t k !! i with Some e => Some (Num n n (body e)) | None => t k !! n end
                                  else t k !! n) as Hl.
  { intros k n. rewrite Heq. pose proof (Hob k n) as Hq. cbn [kinds origin target first_of last_of] in Hq. rewrite Hq.
    rewrite (decide_True (P := None = None \/ None = Some k)) by (by left). apply decide_ext. lia. }
  intros k. split_and!.
  - apply (proj1 (H4 k i)), Hg. done.
  - intros e He. rewrite (proj2 (H4 k j)) by (rewrite Hg; done). by rewrite Hl, decide_True, He.
  - intros He. rewrite (proj2 (H4 k j)) by (rewrite Hg; done). by rewrite Hl, decide_True, He.
  - intros n Hn1 Hn2. rewrite (proj2 (H4 k n)) by (rewrite Hg; done). by rewrite Hl, decide_False.
Qed.
(** A run that stops leaves its requests: the next run that succeeds obeys them, on what is there by then. *)
Theorem copy_after_failure os s : Forall sound_order os -> os <> [] -> at_rest s ->
  exists s1, simulation (map order_line os) [] (fun _ => None) s = Ret (s1, false) /\ stored s1 = stored s /\
    forall t0 react t, react t0 = Some t ->
      exists s', simulation [] [] react (Engine (waiting s1) (new_copy s1) (doomed s1) t0) = Ret (s', true) /\
        at_rest s' /\ all_obeyed os t (stored s').
Proof.
  intros Ho Hn (Hw & _ & Hi). destruct (read_orders os Ho (waiting s)) as (c & Hc & Hk).
  destruct os as [|o os]; [done|]. set (l := (o :: os)%list) in *.
  exists (Engine c true (doomed s) (stored s)). split.
  { unfold simulation. rewrite Hc. cbn [obind read_blocks fst snd andb]. reflexivity. }
  split; [done|]. intros t0 react t Ht. cbn [waiting new_copy doomed].
  destruct (copy_all l c t) as (t' & H1 & H2); [done|intros k; by rewrite Hk, Hw|].
  eexists. split.
  { unfold simulation. cbn [read_copies obind read_blocks fst snd andb waiting doomed stored new_copy]. rewrite Ht, H1. reflexivity. }
  split; [done|]. cbn [stored]. clear H1 Ht.
  assert (forall k, (delete_entities (doomed s) t').2 k = t' k) as Hq by (intros k; cbn [delete_entities snd]; by rewrite Hi).
  clearbody l. clear Hc Hk Ho Hn. induction H2 as [t f Hff|o' os' t t1 f Hob Hos IH]; [constructor; intros k; by rewrite Hq, Hff|].
  econstructor; [done|]. by apply IH.
Qed.
End C102.
Print Assumptions copy_as_asked.
Print Assumptions copy_then_delete.
Print Assumptions copy_moves_cell.
Print Assumptions copy_after_failure.

(** ** Ranges that do not do *)

Definition sands : gmap Z (numbered string) := {[ 1%Z := Num 1 1 "sand"; 7%Z := Num 7 7 "clay" ]}.
Definition keys_of (o : outcome (gmap Z (numbered string))) : option (list (Z * string)) :=
  match o with Ret m => Some (map (fun p => (p.1, body p.2)) (map_to_list m)) | _ => None end.
(** A descending range copies nothing, nor does a range from a negative number to one that is not; up to -1 the loop
    does not end. Up to -2 all is well. *)
Theorem copy_ranges_refuted :
  copy_range (Req 1 9 3) sands = Ret sands /\
  copy_range (Req 1 (-2) 3) sands = Ret sands /\
  copy_range (Req 1 (-3) (-1)) sands = UB /\
  copy_range (Req 1 (-1) (-1)) sands = UB /\
  (exists m, copy_range (Req 1 (-3) (-2)) sands = Ret m /\ m !! (-3)%Z = Some (Num (-3) (-3) "sand")).
Proof.
  split_and!; try reflexivity. eexists. split; [reflexivity|]. by vm_compute.
Qed.
(** Among the lines it is not the first source that counts but the source by then. *)
Theorem copy_chain_refuted :
  keys_of (copy_kind [Req 1 7 7; Req 7 8 8] sands) <> keys_of (copy_kind [Req 7 8 8; Req 1 7 7] sands).
Proof. by vm_compute. Qed.
Print Assumptions copy_ranges_refuted.
Print Assumptions copy_chain_refuted.

Definition rested : engine (fun _ => string) := Engine no_requests false (Lists (fun _ => off) off) (fun _ => sands).
Example copy_applies : at_rest rested /\
  Forall sound_order [Order None 1 (Span 3 5); Order (Some Exchange) 7 (Span (-9) (-4)); Order (Some Mix) (-2) (One 0)].
Proof.
  split; [done|]. repeat (apply Forall_cons; split); [..|by constructor]; unfold sound_order, ints, is_int; cbn; lia.
Qed.
Definition shown (o : outcome (engine (fun _ => string) * bool)) (k : kind) : option (list (Z * string)) :=
  match o with Ret (s, true) => keys_of (Ret (stored s k)) | _ => None end.
Example copy_demo :
  default [] (shown (simulation [CopyLine None "1" "2-3"; CopyLine (Some Exchange) "7" "2"] [[["DELETE"]; ["-cells"; "1"]]]
                       Some rested) Exchange) ≡ₚ [(2, "clay"); (3, "sand"); (7, "clay")]%Z.
Proof. vm_compute. solve_Permutation. Qed.
