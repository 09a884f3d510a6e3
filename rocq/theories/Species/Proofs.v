From Coq Require Import String QArith Qcanon.
From stdpp Require Import prelude strings gmap.
From Verif.Base Require Import Result.
From Verif.Names Require Import Model Spec Proofs.
From Verif.Solution Require Import Model Spec Proofs.
From Verif.Conc Require Import Model Spec Proofs.
From Verif.Boundary Require Import Model Proofs.
From Verif.Species Require Import Model Spec.
Local Open Scope Qc_scope.

(** ** Name lists *)
Lemma listed_add k x l n : ordered l ->
  listed (nd_add Qcplus k x l) n = listed l n + if decide (k = n) then x else 0.
Proof.
  intros Ho. unfold nd_add. pose proof (listed_find l k Ho) as Hk.
  destruct (nd_find k l) as [y|]; rewrite listed_set by done;
    destruct (decide (n = k)) as [->|Hne]; rewrite ?decide_True by done;
    rewrite ?(decide_False (P := k = n)) by congruence; rewrite ?Hk; ring.
Qed.
Lemma named_add k x (l : nmap Qc) n : ordered l -> named (nd_add Qcplus k x l) n -> n = k \/ named l n.
Proof.
  intros Ho [v Hv]. unfold nd_add in Hv.
  destruct (nd_find k l) as [y|]; apply nd_set_elem in Hv; try done;
    destruct Hv as [[-> _]|[_ Hv]]; [by left|right; by exists v|by left|right; by exists v].
Qed.

(** A list all of whose names satisfy a predicate *)
Definition all_names (P : string -> Prop) (l : nmap Qc) : Prop := forall n, named l n -> P n.
Lemma add_all_names (P : string -> Prop) k x (l : nmap Qc) : ordered l -> P k -> all_names P l -> all_names P (nd_add Qcplus k x l).
Proof. intros Ho Hk Hl n [->|Hn]%named_add; [done|by apply Hl|done]. Qed.

Lemma blank_spec comps acc : ordered acc -> Forall basic comps -> all_names basic acc ->
  let r := fold_left (fun acc c => nd_add Qcplus c 0 acc) comps acc in
  ordered r /\ all_names basic r /\ forall n, listed r n = listed acc n.
Proof.
  revert acc. induction comps as [|c comps IH]; intros acc Ho Hc Ha r; [done|].
  apply Forall_cons in Hc as [Hc1 Hc2]. cbn [fold_left] in r.
  destruct (IH (nd_add Qcplus c 0 acc)) as (A & B & C); [by apply nd_add_ordered|done|by apply add_all_names|].
  split_and!; [done..|]. intros n. unfold r. rewrite C, listed_add by done. destruct (decide _); ring.
Qed.
Lemma add_species_spec st conc acc : ordered acc -> Forall (fun q => basic q.1) st -> all_names basic acc ->
  let r := add_species st conc acc in
  ordered r /\ all_names basic r /\ forall n, listed r n = listed acc n + listed st n * conc.
Proof.
  revert acc. induction st as [|[m x] st IH]; intros acc Ho Hc Ha r.
  { split_and!; [done..|]. intros n. change r with acc. cbn [listed]. ring. }
  apply Forall_cons in Hc as [Hc1 Hc2]. unfold add_species in r. cbn [fold_left fst snd] in r.
  destruct (IH (nd_add Qcplus m (x * conc) acc)) as (A & B & C);
    [by apply nd_add_ordered|done|by apply add_all_names|].
  split_and!; [done..|]. intros n. fold (add_species st conc (nd_add Qcplus m (x * conc) acc)) in r.
  unfold r. rewrite C, listed_add by done. simpl.
  destruct (decide (m = n)); ring.
Qed.
Lemma add_all_spec n gc t k sts acc :
  ordered acc -> Forall (fun st => ordered st /\ Forall (fun q => basic q.1) st) sts -> all_names basic acc ->
  (gc < n)%nat -> ((k + length sts) * n <= length t)%nat ->
  exists r, add_all_species n gc t k sts acc = Ret r /\ ordered r /\ all_names basic r /\
    forall e, listed r e = listed acc e + held n t gc e k sts.
Proof.
  revert k acc. induction sts as [|st sts IH]; intros k acc Ho Hs Ha Hg Hl.
  { exists acc. split_and!; [done..|]. intros e. cbn [held]. ring. }
  apply Forall_cons in Hs as [[Hs0 Hs1] Hs2]. cbn [add_all_species held].
  assert (Hlt : (k * n + gc < length t)%nat).
  { cbn [length] in Hl. nia. }
  destruct (lookup_lt_is_Some_2 t _ Hlt) as [x Hx]. unfold vat. rewrite Hx. cbn [obind].
  destruct (add_species_spec st x acc Ho Hs1 Ha) as (A & B & C).
  destruct (IH (S k) (add_species st x acc)) as (r & E & R1 & R2 & R3); [done..| |].
  { cbn [length] in Hl. lia. }
  exists r. split_and!; [done..|]. intros e. rewrite R3, C. unfold conc_at. rewrite Hx. cbn. ring.
Qed.

Lemma listed_app l l' n : listed (l ++ l') n = listed l n + listed l' n.
Proof.
  induction l as [|[m v] l IH]; cbn [app listed]; [ring|]. rewrite IH. destruct (decide _); ring.
Qed.
Definition three (n : string) : Prop := n = "H"%string \/ n = "O"%string \/ n = "Charge"%string.
Lemma split_spec l : NoDup l.*1 ->
  let '(h, o, cb, nd) := split_totals l in
  h = listed l "H" /\ o = listed l "O" /\ cb = listed l "Charge" /\ ordered nd /\
  (forall n, ~ three n -> listed nd n = listed l n) /\
  (forall n, named nd n -> named l n /\ ~ three n).
Proof.
  unfold split_totals. induction l as [|[m x] l IH] using rev_ind; intros Hn.
  { cbn. split_and!; try done; [constructor|]. intros n [v Hv]. by apply elem_of_nil in Hv. }
  rewrite fold_left_app. cbn [fold_left]. rewrite fmap_app in Hn. apply NoDup_app in Hn as (N1 & N2 & _).
  specialize (IH N1). destruct (fold_left split_step l (0, 0, 0, [])) as [[[h o] cb] nd].
  destruct IH as (-> & -> & -> & Ho & Hl & Hm).
  assert (Hnew : listed l m = 0).
  { apply listed_none. intros [v Hv]. apply (N2 m); [|by left]. apply elem_of_list_fmap. by exists (m, v). }
  assert (Hinc : forall n, named l n -> named (l ++ [(m, x)]) n).
  { intros n [v Hv]. exists v. apply elem_of_app. by left. }
  assert (Hlast : named (l ++ [(m, x)]) m).
  { exists x. apply elem_of_app. right. by left. }
  unfold split_step. cbn [fst snd]. rewrite !listed_app. cbn [listed].
  destruct (decide (m = "H"%string)) as [->|H1].
  { rewrite Hnew. rewrite !decide_False by done. split_and!; try ring; [done| |].
    - intros n Hn. rewrite listed_app. cbn [listed]. rewrite decide_False; [|by intros <-; apply Hn; left].
      rewrite Hl by done. ring.
    - intros n Hn. apply Hm in Hn as [? ?]. auto. }
  destruct (decide (m = "O"%string)) as [->|H2].
  { rewrite Hnew. rewrite !decide_False by done. split_and!; try ring; [done| |].
    - intros n Hn. rewrite listed_app. cbn [listed]. rewrite decide_False; [|by intros <-; apply Hn; right; left].
      rewrite Hl by done. ring.
    - intros n Hn. apply Hm in Hn as [? ?]. auto. }
  destruct (decide (m = "Charge"%string)) as [->|H3].
  { rewrite Hnew. split_and!; try ring; [done| |].
    - intros n Hn. rewrite listed_app. cbn [listed]. rewrite decide_False; [|by intros <-; apply Hn; right; right].
      rewrite Hl by done. ring.
    - intros n Hn. apply Hm in Hn as [? ?]. auto. }
  split_and!; try ring; [by apply nd_add_ordered| |].
  - intros n Hn. rewrite listed_add by done. rewrite listed_app. cbn [listed]. rewrite Hl by done.
    destruct (decide (m = n)); ring.
  - intros n Hn. apply named_add in Hn; [|done]. destruct Hn as [->|Hn].
    + split; [done|]. intros [?|[?|?]]; done.
    + apply Hm in Hn as [? ?]. auto.
Qed.

Lemma ordered_nodup {V} (l : list (string * V)) : ordered l -> NoDup l.*1.
Proof.
  induction l as [|[n v] l IH]; intros H; [constructor|]. apply ordered_cons in H as [Ho Hb].
  cbn. apply NoDup_cons. split; [|by apply IH]. intros Hin.
  apply elem_of_list_fmap in Hin as ([m w] & Heq & Hin). cbn in Heq. subst m. by apply Hb, before_irrefl in Hin.
Qed.
Lemma multiply_names (x : Qc) (l : nmap Qc) : (nd_multiply Qcmult x l).*1 = l.*1.
Proof. induction l as [|[n v] l IH]; [done|]. cbn. by f_equal. Qed.
Lemma multiply_listed x l n : listed (nd_multiply Qcmult x l) n = x * listed l n.
Proof.
  induction l as [|[m v] l IH]; [cbn [nd_multiply map listed]; ring|]. unfold nd_multiply in *.
  cbn [map listed fst snd]. rewrite IH. destruct (decide (m = n)); ring.
Qed.
Lemma multiply_named x (l : nmap Qc) n : named (nd_multiply Qcmult x l) n <-> named l n.
Proof.
  unfold named. split; intros [v Hv].
  - apply elem_of_list_fmap in Hv as ([m w] & [= -> ->] & Hv). by exists w.
  - exists (v * x). apply elem_of_list_fmap. by exists (n, v).
Qed.

(** ** One cell *)
Lemma update_elements h o cb nd s : ordered nd -> (forall e, named nd e -> element_name e) ->
  ordered (s_totals (sol_update h o cb nd s)) /\
  (forall e, named (s_totals (sol_update h o cb nd s)) e -> element_name e) /\
  forall e, listed (s_totals (sol_update h o cb nd s)) e = kept (listed nd e) (listed nd e).
Proof.
  intros Ho Hn. unfold sol_update. cbn [s_totals].
  assert (E1 : simplify_redox 0 Qcplus nd = nd).
  { apply simplify_plain; [intros; ring|done|]. intros m v Hin. apply Hn. by exists v. }
  rewrite E1. assert (Ho' : ordered (clip_tiny nd)) by by apply clip_tiny_ordered. split_and!; [done| |].
  - intros e [v Hv]. apply clip_tiny_elem in Hv as [w Hw]. apply Hn. by exists w.
  - intros e. rewrite !listed_find by done. rewrite clip_tiny_find. unfold kept.
    change (Q2Qc (1 # 10 ^ 25)) with tiny. destruct (nd_find e nd) as [x|]; cbn [option_map]; [done|].
    by destruct (Qc_ltb 0 tiny).
Qed.

Lemma species_in_spec p g t b gc s por sat rv : table_ok p ->
  (nspecies p * g_n g <= length t)%nat -> (gc < g_n g)%nat -> b !! 0%nat = Some gc ->
  g_por g !! gc = Some por -> g_sat g !! gc = Some sat -> g_rv g !! gc = Some rv ->
  exists s', species_in p g t b s = Ret s' /\
    match s, s' with
    | None, None => True
    | Some s, Some s' => set_to p (g_n g) t gc (por * sat * rv) s s'
    | _, _ => False
    end.
Proof.
  intros [Hc Hs] Ht Hgc Hb E1 E2 E3. unfold species_in, vat. rewrite Hb. cbn [obind].
  destruct (blank_spec (p_comps p) []) as (B1 & B2 & B3); [constructor|done| |].
  { intros n [v Hv]. by apply elem_of_nil in Hv. }
  destruct (add_all_spec (g_n g) gc t 0 (p_stoich p) (blank_totals (p_comps p))) as (r & Er & R1 & R2 & R3);
    [done..|].
  rewrite Er. cbn [obind]. rewrite E1. cbn [obind]. rewrite E2. cbn [obind]. rewrite E3. cbn [obind].
  pose proof (split_spec (nd_multiply Qcmult (por * sat * rv) r)) as HS.
  rewrite multiply_names in HS. specialize (HS (ordered_nodup r R1)).
  destruct (split_totals (nd_multiply Qcmult (por * sat * rv) r)) as [[[h o] cb] nd].
  destruct HS as (-> & -> & -> & Ho & Hl & Hm).
  assert (R4 : forall e, listed r e = held (g_n g) t gc e 0 (p_stoich p)).
  { intros e. rewrite R3. unfold blank_totals. rewrite B3. simpl. ring. }
  assert (Hel : forall e, named nd e -> element_name e).
  { intros e He. apply Hm in He as [H1 H2]. apply (proj1 (multiply_named _ _ _)), R2 in H1.
    destruct H1 as [?|[?|[?|?]]]; [exfalso; apply H2; by left|exfalso; apply H2; by right; left|
      exfalso; apply H2; by right; right|done]. }
  eexists. split; [done|]. destruct s as [s|]; [|done]. cbn [option_map]. unfold set_to.
  destruct (update_elements (listed (nd_multiply Qcmult (por * sat * rv) r) "H")
    (listed (nd_multiply Qcmult (por * sat * rv) r) "O")
    (listed (nd_multiply Qcmult (por * sat * rv) r) "Charge") nd s Ho Hel) as (U1 & U2 & U3).
  split_and!; try done.
  - cbn. by rewrite multiply_listed, R4.
  - cbn. by rewrite multiply_listed, R4.
  - cbn. by rewrite multiply_listed, R4.
  - intros e He. cbv zeta. rewrite U3, Hl, multiply_listed, R4; [done|].
    destruct He as (_ & _ & ? & ? & ?). intros [?|[?|?]]; done.
Qed.

Lemma species_cells_spec p g t back m : table_ok p -> (nspecies p * g_n g <= length t)%nat ->
  length m = length back ->
  (forall b, b ∈ back -> exists gc por sat rv, b !! 0%nat = Some gc /\ (gc < g_n g)%nat /\
     g_por g !! gc = Some por /\ g_sat g !! gc = Some sat /\ g_rv g !! gc = Some rv) ->
  exists m', species_cells p g t back m = Ret m' /\ length m' = length m /\
    forall j b s, back !! j = Some b -> m !! j = Some s ->
      exists s', m' !! j = Some s' /\ species_in p g t b s = Ret s'.
Proof.
  intros Hp Ht. revert m. induction back as [|b back IH]; intros m Hl Hb.
  { destruct m; [|done]. exists []. done. }
  destruct m as [|s m]; [done|]. cbn in Hl. injection Hl as Hl.
  destruct (Hb b) as (gc & por & sat & rv & H1 & H2 & H3 & H4 & H5); [by left|].
  destruct (species_in_spec p g t b gc s por sat rv) as (s' & E & _); [done..|].
  destruct (IH m Hl) as (m' & E' & L' & S').
  { intros b' Hin. apply Hb. by right. }
  cbn [species_cells]. rewrite E. cbn [obind]. rewrite E'. cbn [obind].
  exists (s' :: m'). split_and!; [done|cbn; by f_equal|]. intros [|j] b' s0 Hj Hs; cbn in Hj, Hs.
  - injection Hj as <-. injection Hs as <-. by exists s'.
  - by apply S'.
Qed.

Lemma first_cell g b : grid_ok g -> b ∈ g_back g -> exists gc por sat rv, b !! 0%nat = Some gc /\
  (gc < g_n g)%nat /\ g_por g !! gc = Some por /\ g_sat g !! gc = Some sat /\ g_rv g !! gc = Some rv.
Proof.
  intros Hg [j Hj]%elem_of_list_lookup.
  destruct (rep_of g j Hg) as (gc & b' & Hj' & Hgc); [by eapply lookup_lt_Some|].
  rewrite Hj in Hj'. injection Hj' as ->.
  destruct (rep_props g j gc Hg) as (_ & _ & por & sat & rv & dens & E1 & E2 & E3 & _); [by exists b'|].
  by exists gc, por, sat, rv.
Qed.

(** ** Reading *)
Lemma species_values_spec p f s m : numbers_ok p f m -> Some s ∈ m ->
  exists d, species_values p f s = Ret d /\ length d = nspecies p /\
    forall i x, d !! i = Some x -> species_of p f s i x.
Proof.
  intros Hn Hs. destruct (Hn s Hs) as [Ha Hb]. unfold species_values.
  destruct (put_species_spec (p_index p) (by_number (f s)) (replicate (nspecies p) 0)) as (d & E & L & S1 & S2).
  - apply by_number_nodup.
  - intros n x Hin. rewrite replicate_length. apply by_number_elem in Hin. by apply (Ha n x).
  - intros n n' x x' j H1 H2 H3 H4. apply by_number_elem in H1, H2. by apply (Hb n n' j).
  - rewrite replicate_length in L. exists d. split_and!; [done..|]. intros i x Hi.
    (* is there a number for place i among those of the solution? *)
    destruct (decide (Exists (fun q => p_index p !! q.1 = Some i) (by_number (f s)))) as [He|He].
    + apply Exists_exists in He as ([k y] & Hin & Hk). cbn in Hk. left. exists k.
      rewrite (S1 k y i Hin Hk) in Hi. injection Hi as <-. split; [done|]. by apply by_number_elem.
    + right. split.
      * intros k Hk. destruct (f s !! k) as [y|] eqn:E2; [|done]. exfalso. apply He. apply Exists_exists.
        exists (k, y). split; [by apply by_number_elem|done].
      * rewrite S2 in Hi.
        -- apply lookup_replicate in Hi as [-> _]. done.
        -- intros n y Hin Hj. apply He. apply Exists_exists. by exists (n, y).
Qed.

Lemma read_cells_spec p f n back m out :
  length out = (n * nspecies p)%nat -> Forall (fun gc => gc < n)%nat (mjoin back) -> NoDup (mjoin back) ->
  numbers_ok p f m -> length m = length back -> Forall is_Some m ->
  exists out', read_cells p f n back m out = Ret out' /\ length out' = length out /\
    forall i gc, (i < nspecies p)%nat -> (gc < n)%nat ->
      (forall j b s, back !! j = Some b -> gc ∈ b -> m !! j = Some (Some s) ->
         exists x, out' !! (n * i + gc)%nat = Some x /\ species_of p f s i x) /\
      (gc ∉ mjoin back -> out' !! (n * i + gc)%nat = out !! (n * i + gc)%nat).
Proof.
  revert m out. induction back as [|b back IH]; intros m out Hl Hf Hnd HN Hm Ha.
  { exists out. split_and!; [done..|]. intros i gc _ _. split; [by intros ???|done]. }
  destruct m as [|s m]; [done|]. cbn in Hm. injection Hm as Hm. apply Forall_cons in Ha as [[s' ->] Ha].
  cbn [mjoin list_join] in Hf, Hnd. apply Forall_app in Hf as [Hf1 Hf2]. apply NoDup_app in Hnd as (N1 & N2 & N3).
  cbn [read_cells]. destruct (species_values_spec p f s' (Some s' :: m) HN) as (d & Ed & Ld & Sd); [by left|].
  rewrite Ed. cbn [obind].
  destruct (scatter_spec n (nspecies p) b d out) as (o1 & E1 & L1 & S1); [done|done|lia|].
  rewrite E1. cbn [obind].
  destruct (IH m o1) as (o2 & E2 & L2 & S2); [by rewrite L1|done|done| |done|done|].
  { intros s Hs. apply HN. by right. }
  exists o2. split_and!; [done|by rewrite L2|]. intros i gc Hi Hg. destruct (S2 i gc Hi Hg) as [A B]. split.
  - intros [|j] b' s Hb Hin Hs; cbn in Hb, Hs.
    + injection Hb as <-. injection Hs as <-. rewrite B by by apply N2. rewrite S1 by done.
      rewrite decide_True by done. destruct (lookup_lt_is_Some_2 d i) as [x Hx]; [lia|].
      exists x. split; [done|by apply Sd].
    + by apply (A j b' s).
  - cbn [mjoin list_join]. rewrite not_elem_of_app. intros [H1 H2]. rewrite B by done. rewrite S1 by done.
    by rewrite decide_False by done.
Qed.
