(** Properties C71 and C72. *)
From Coq Require Import String QArith Qcanon.
From stdpp Require Import prelude strings gmap.
From Verif.Base Require Import Result.
From Verif.Names Require Import Model Spec Proofs.
From Verif.Solution Require Import Model Spec Proofs.
From Verif.Conc Require Import Model Spec Proofs.
From Verif.Boundary Require Import Model Proofs.
From Verif.Species Require Import Model Spec Proofs.
Local Open Scope Qc_scope.

(** ** C71: setting the cells from species *)

(** Every cell gets exactly the elements and the charge of the species given for its grid cell. *)
Theorem species_set p g t m : p_save p = true -> table_ok p -> grid_ok g ->
  (nspecies p * g_n g <= length t)%nat -> length m = length (g_back g) ->
  exists m', species_to_module p g t m = Ret (IRM_OK, m') /\ length m' = length m /\
    forall j gc, rep g j gc ->
      (m !! j = Some None -> m' !! j = Some None) /\
      (forall s, m !! j = Some (Some s) -> exists s' v, m' !! j = Some (Some s') /\ water g gc v /\
         set_to p (g_n g) t gc v s s').
Proof.
  intros Hon Hp Hg Ht Hl. unfold species_to_module. rewrite Hon.
  destruct (species_cells_spec p g t (g_back g) m Hp Ht Hl) as (m' & E & L & S').
  { intros b Hb. by apply first_cell. }
  exists m'. rewrite E. split_and!; [done..|]. intros j gc [b Hj].
  destruct (rep_props g j gc Hg) as (Hgc & _ & por & sat & rv & dens & E1 & E2 & E3 & _); [by exists b|].
  split; [intros Hs|intros s Hs]; destruct (S' j (gc :: b) _ Hj Hs) as (s' & Hs' & Ei).
  - destruct (species_in_spec p g t (gc :: b) gc None por sat rv) as (s2 & Ei' & R); [done..|].
    rewrite Ei in Ei'. injection Ei' as <-. destruct s' as [s'|]; [done|]. done.
  - destruct (species_in_spec p g t (gc :: b) gc (Some s) por sat rv) as (s2 & Ei' & R); [done..|].
    rewrite Ei in Ei'. injection Ei' as <-. destruct s' as [s'|]; [|done].
    exists s', (por * sat * rv). split_and!; [done| |done]. by exists por, sat, rv.
Qed.
Print Assumptions species_set.

(** Without species saving nothing changes and the call is refused. *)
Theorem species_set_off p g t m : p_save p = false -> species_to_module p g t m = Ret (IRM_INVALIDARG, m).
Proof. unfold species_to_module. by intros ->. Qed.
Print Assumptions species_set_off.

(** Values for grid cells that do not stand for a chemistry cell are ignored. *)
Lemma add_all_agree n gc t t' k sts acc :
  (forall i, (k <= i < k + length sts)%nat -> t !! (i * n + gc)%nat = t' !! (i * n + gc)%nat) ->
  add_all_species n gc t k sts acc = add_all_species n gc t' k sts acc.
Proof.
  revert k acc. induction sts as [|st sts IH]; intros k acc H; [done|]. cbn [add_all_species].
  unfold vat. rewrite (H k) by (cbn; lia). destruct (t' !! _); [|done]. cbn [obind]. apply IH.
  intros i Hi. apply H. cbn. lia.
Qed.
Theorem species_set_local p g t t' m :
  (forall j gc k, rep g j gc -> (k < nspecies p)%nat -> t !! (k * g_n g + gc)%nat = t' !! (k * g_n g + gc)%nat) ->
  species_to_module p g t m = species_to_module p g t' m.
Proof.
  intros H. unfold species_to_module. destruct (p_save p); [|done]. f_equal.
  assert (H' : forall gc b, (gc :: b) ∈ g_back g -> forall k, (k < nspecies p)%nat ->
             t !! (k * g_n g + gc)%nat = t' !! (k * g_n g + gc)%nat).
  { intros gc b [j Hj]%elem_of_list_lookup k Hk. apply (H j gc k); [by exists b|done]. }
  clear H. revert m. induction (g_back g) as [|b back IH]; intros m; [done|].
  destruct m as [|s m]; [done|]. cbn [species_cells].
  assert (E : species_in p g t b s = species_in p g t' b s).
  { unfold species_in. destruct b as [|gc b]; [done|]. cbn [vat lookup list_lookup obind].
    rewrite (add_all_agree (g_n g) gc t t'); [done|]. intros i Hi. apply (H' gc b); [by left|]. unfold nspecies. lia. }
  rewrite E. destruct (species_in p g t' b s); [|done..]. cbn [obind]. rewrite IH; [done|].
  intros gc b' Hin. apply (H' gc b'). by right.
Qed.
Print Assumptions species_set_local.

(** A short vector is read past its end. *)
Theorem species_set_short_refuted p g t m j gc s k :
  p_save p = true -> g_back g !! 0%nat = Some (gc :: j) -> m !! 0%nat = Some s ->
  (k < nspecies p)%nat -> (length t <= k * g_n g + gc)%nat ->
  species_to_module p g t m = UB.
Proof.
  intros Hon Hb Hm Hk Ht. unfold species_to_module. rewrite Hon. destruct (g_back g) as [|b back]; [done|].
  destruct m as [|s0 m]; [done|]. cbn in Hb. injection Hb as ->. cbn [species_cells]. unfold species_in.
  cbn [vat lookup list_lookup obind].
  assert (E : forall sts i acc, (i <= k < i + length sts)%nat -> add_all_species (g_n g) gc t i sts acc = UB).
  { induction sts as [|st sts IH]; intros i acc Hi; cbn in Hi; [lia|]. cbn [add_all_species]. unfold vat.
    destruct (decide (i = k)) as [->|Hne].
    - rewrite lookup_ge_None_2 by done. done.
    - destruct (t !! _); [|done]. cbn [obind]. apply IH. lia. }
  rewrite E; [done|]. unfold nspecies in Hk. lia.
Qed.
Print Assumptions species_set_short_refuted.

(** An example: one cell of 2 liters of water, species H2O, Na+ and a complex NaOH. *)
Definition ex_st : list (nmap Qc) :=
  [ [("Charge"%string, 0); ("H"%string, qz 2); ("O"%string, qz 1)];
    [("Charge"%string, qz 1); ("Na"%string, qz 1)];
    [("Charge"%string, 0); ("H"%string, qz 1); ("Na"%string, qz 1); ("O"%string, qz 1)] ].
Definition ex_index : gmap Z nat := list_to_map [(4%Z, 0%nat); (9%Z, 1%nat); (7%Z, 2%nat)].
Definition ex_p : spcfg := SpCfg true ["H2O"; "H"; "O"; "Charge"; "Na"]%string ex_st ex_index.
Definition ex_g : grid := Grid 3 [[1%nat; 2%nat]] [qz 1; qz 1; qz 1] [qz 1; qz 1; qz 1] [qz 2; qz 2; qz 2] [qz 1; qz 1; qz 1].
Definition ex_sol (species : gmap Z Qc) : sol :=
  Sol (qz 25) (qz 7) (qz 4) 0 (qz 1) (qz 1) 0 0 (qz 1) (qz 1) (qz 1) 0 (qz 1) (qz 1) 0
      [("Cl"%string, qz 1)] [] [] species.
Definition ex_sp : gmap Z Qc := list_to_map [(9%Z, qz 5); (7%Z, qz 6)].
Definition ex_m : cells := [Some (ex_sol ex_sp)].
Definition ex_t : list Qc := [0; qz 55; 0;  0; qz 3; 0;  0; qz 1; 0].
Definition see (m : cells) : list (option (Qc * Qc * Qc * list (string * Qc))) :=
  map (option_map (fun s => (s_h s, s_o s, s_cb s, s_totals s))) m.
Definition see_r (r : outcome (irm_result * cells)) :=
  match r with Ret (c, m) => Some (c, see m) | _ => None end.

Ltac qlit := repeat (f_equal; try (apply Qc_is_canon; vm_compute; reflexivity)).

Ltac basic_tac :=
  first [left; reflexivity | right; left; reflexivity | right; right; left; reflexivity
        | right; right; right; unfold element_name, valence; split_and!; [by vm_compute|by vm_compute; intros H; apply H|done..]].
Lemma ex_p_ok : table_ok ex_p.
Proof.
  split.
  - cbn. repeat (apply Forall_cons; split); [basic_tac..|constructor].
  - cbn. apply Forall_cons; split; [|apply Forall_cons; split; [|apply Forall_cons; split; [|constructor]]];
      (split; [by apply ordb_ordered|]); repeat (apply Forall_cons; split); try apply Forall_nil_2; cbn; basic_tac.
Qed.
Lemma ex_g_ok : grid_ok ex_g.
Proof.
  split; [|cbn; lia]. split_and!.
  - repeat constructor; done.
  - repeat constructor; cbn; lia.
  - apply (bool_decide_unpack _). by vm_compute.
Qed.
Example species_set_case : p_save ex_p = true /\ table_ok ex_p /\ grid_ok ex_g /\
  (nspecies ex_p * g_n ex_g <= length ex_t)%nat /\ length ex_m = length (g_back ex_g) /\
  see_r (species_to_module ex_p ex_g ex_t ex_m) =
    Some (IRM_OK, [Some (qz 222, qz 112, qz 6, [("H2O"%string, 0); ("Na"%string, qz 8)])]).
Proof. split_and!; [done|apply ex_p_ok|apply ex_g_ok|cbn; lia|done|]. vm_compute. qlit. Qed.

(** A dry cell is not skipped: it loses all its water and elements, while SetConcentrations leaves
    such a cell as it is. *)
Definition dry_g : grid := Grid 3 [[1%nat; 2%nat]] [qz 1; qz 1; qz 1] [qz 1; 0; qz 1] [qz 2; qz 2; qz 2] [qz 1; qz 1; qz 1].
Theorem species_dry_refuted :
  grid_ok dry_g /\
  see_r (species_to_module ex_p dry_g ex_t ex_m) =
    Some (IRM_OK, [Some (0, 0, 0, [("H2O"%string, 0); ("Na"%string, 0)])]) /\
  see ex_m = [Some (qz 1, qz 1, 0, [("Cl"%string, qz 1)])] /\
  forall c t, cfg_ok c -> (g_n dry_g * length (c_comps c) <= length t)%nat ->
    set_concentrations c dry_g t ex_m = Ret ex_m.
Proof.
  assert (Hg : grid_ok dry_g).
  { split; [|cbn; lia]. split_and!.
    - repeat constructor; done.
    - repeat constructor; cbn; lia.
    - apply (bool_decide_unpack _). by vm_compute. }
  split_and!; [done|vm_compute; qlit|vm_compute; qlit|]. intros c t [Hc _] Ht.
  destruct (set_total c dry_g t ex_m Hg Hc Ht) as (m' & E & L & S'); [done|].
  destruct (S' 0%nat 1%nat (Some (ex_sol ex_sp))) as (s' & Hs' & Ei); [by exists [2%nat]|done|].
  rewrite E. f_equal. destruct m' as [|a [|b m']]; [done| |done]. cbn in Hs'. injection Hs' as ->.
  unfold cell_in in Ei.
  rewrite decide_False in Ei by (intros E0; destruct Hc as [H1 H2]; rewrite E0 in H2; unfold fixed in H1; simpl in H2; destruct (c_h2o c); lia).
  cbn in Ei. injection Ei as <-. done.
Qed.
Print Assumptions species_dry_refuted.

(** ** C72: reading the species of the cells *)

(** Layout: the value of the [i]th species for every grid cell of every chemistry cell. *)
Theorem species_read p f g m old : p_save p = true -> grid_ok g -> numbers_ok p f m ->
  length m = length (g_back g) -> Forall is_Some m ->
  exists out, read_species p f g m old = Ret out /\ length out = (nspecies p * g_n g)%nat /\
    forall i gc, (i < nspecies p)%nat -> (gc < g_n g)%nat ->
      (forall j s, covers g j gc -> m !! j = Some (Some s) ->
         exists x, out !! (i * g_n g + gc)%nat = Some x /\ species_of p f s i x) /\
      ((forall j, ~ covers g j gc) -> out !! (i * g_n g + gc)%nat = Some (default 0 (old !! (i * g_n g + gc)%nat))).
Proof.
  intros Hon Hg HN Hl Ha. unfold read_species. rewrite Hon.
  destruct Hg as [(H1 & H2 & H3) _].
  assert (Lr : length (vresize (nspecies p * g_n g) 0 old) = (g_n g * nspecies p)%nat).
  { unfold vresize. rewrite app_length, take_length, replicate_length. lia. }
  destruct (read_cells_spec p f (g_n g) (g_back g) m _ Lr H2 H3 HN Hl Ha) as (out & E & L & S').
  exists out. split_and!; [done|by rewrite L, Lr, Nat.mul_comm|]. intros i gc Hi Hgc.
  destruct (S' i gc Hi Hgc) as [A B]. rewrite (Nat.mul_comm i). split.
  - intros j s (b & Hj & Hin) Hs. by apply (A j b s).
  - intros Hno. rewrite B.
    + unfold vresize. assert (Hpos : (g_n g * i + gc < nspecies p * g_n g)%nat) by nia.
      destruct (decide (g_n g * i + gc < length old)%nat) as [Hd|Hd].
      * rewrite lookup_app_l by (rewrite take_length; lia). rewrite lookup_take by done.
        by destruct (lookup_lt_is_Some_2 old _ Hd) as [y ->].
      * rewrite lookup_app_r by (rewrite take_length; lia). rewrite take_length.
        rewrite lookup_replicate_2 by lia. by rewrite (lookup_ge_None_2 old) by lia.
    + intros Hin. apply (join_covers g) in Hin as [j Hj]. by apply (Hno j).
Qed.
Print Assumptions species_read.

(** Two grid cells of the same chemistry cell read the same. *)
Theorem species_read_shared p f g m old out j gc gc' i : p_save p = true -> grid_ok g -> numbers_ok p f m ->
  length m = length (g_back g) -> Forall is_Some m -> read_species p f g m old = Ret out ->
  covers g j gc -> covers g j gc' -> (i < nspecies p)%nat ->
  out !! (i * g_n g + gc)%nat = out !! (i * g_n g + gc')%nat.
Proof.
  intros Hon Hg HN Hl Ha E C1 C2 Hi. pose proof Hg as [(H1 & H2 & H3) _].
  destruct (species_read p f g m old Hon Hg HN Hl Ha) as (out' & E' & L & S'). rewrite E in E'. injection E' as <-.
  destruct C1 as (b & Hb & I1). destruct C2 as (b' & Hb' & I2). assert (b' = b) as -> by congruence.
  assert (Hlt : forall x, x ∈ b -> (x < g_n g)%nat).
  { intros x Hx. rewrite Forall_forall in H2. apply H2. apply (covers_join g j). by exists b. }
  assert (Hj : is_Some (m !! j)) by (apply lookup_lt_is_Some_2; rewrite Hl; by eapply lookup_lt_Some).
  destruct Hj as [so Hs]. rewrite Forall_forall in Ha.
  destruct (Ha so) as [s ->]; [by eapply elem_of_list_lookup_2|].
  destruct (S' i gc Hi (Hlt _ I1)) as [A _]. destruct (S' i gc' Hi (Hlt _ I2)) as [A' _].
  destruct (A j s) as (x & -> & X); [by exists b|done|]. destruct (A' j s) as (x' & -> & X'); [by exists b|done|].
  f_equal. destruct (HN s) as [_ Hinj]; [by eapply elem_of_list_lookup_2|].
  destruct X as [(k & K1 & K2)|[K1 K2]]; destruct X' as [(k' & K1' & K2')|[K1' K2']].
  - assert (k' = k) as -> by (by apply (Hinj k' k i)). congruence.
  - by rewrite (K1' k K1) in K2.
  - by rewrite (K1 k' K1') in K2'.
  - congruence.
Qed.
Print Assumptions species_read_shared.

(** The call that sets the cells does not change what is read: the old species are reported until
    the next calculation. *)
Lemma species_of_ext p f s s' i x : f s' = f s -> species_of p f s i x -> species_of p f s' i x.
Proof. unfold species_of. by intros ->. Qed.
Theorem species_read_after_set p g t m m' old r : p_save p = true -> table_ok p -> grid_ok g ->
  (nspecies p * g_n g <= length t)%nat -> length m = length (g_back g) -> 
  species_to_module p g t m = Ret (r, m') ->
  read_species p s_species g m' old = read_species p s_species g m old.
Proof.
  intros Hon Hp Hg Ht Hl E. destruct (species_set p g t m Hon Hp Hg Ht Hl) as (m2 & E2 & L2 & S2).
  rewrite E in E2. injection E2 as _ ->. rename m2 into m1.
  unfold read_species. rewrite Hon.
  assert (H : forall j s s', m !! j = Some s -> m1 !! j = Some s' -> option_map s_species s' = option_map s_species s).
  { intros j s s' Hs Hs'. assert (Hj : (j < length (g_back g))%nat) by (rewrite <- Hl; by eapply lookup_lt_Some).
    destruct (rep_of g j Hg Hj) as (gc & b & Hb & _). destruct (S2 j gc) as [A B]; [by exists b|].
    destruct s as [s|].
    - destruct (B s Hs) as (s2 & v & Hs2 & _ & R). rewrite Hs' in Hs2. injection Hs2 as ->. cbn. f_equal. apply R.
    - rewrite A in Hs' by done. injection Hs' as <-. done. }
  clear S2 E Ht Hl Hg. generalize (vresize (nspecies p * g_n g) 0 old). revert m m1 L2 H.
  induction (g_back g) as [|b back IH]; intros m m1 L2 H out; [done|].
  destruct m as [|s m]; destruct m1 as [|s1 m1]; try done.
  pose proof (H 0%nat s s1 eq_refl eq_refl) as H0. cbn in L2. injection L2 as L2.
  destruct s as [s|]; destruct s1 as [s1|]; try done. cbn in H0. injection H0 as H0. cbn [read_cells].
  unfold species_values. rewrite H0. destruct (put_species _ _ _); [|done..]. cbn [obind].
  destruct (scatter _ _ _ _ _); [|done..]. cbn [obind]. apply IH; [done|]. intros j c c' Hc Hc'.
  by apply (H (S j)).
Qed.
Print Assumptions species_read_after_set.

(** Reading the species and setting the cells from them gives back every solution whose species
    account for its contents, up to amounts below 1e-25 moles. *)
Lemma held_made n t gc e k sts :
  held n t gc e k sts = made_of sts (map (fun i => conc_at n t i gc) (seq k (length sts))) e.
Proof. revert k. induction sts as [|st sts IH]; intros k; [done|]. cbn. by rewrite IH. Qed.
Theorem species_round_trip p g m old : p_save p = true -> table_ok p -> grid_ok g -> numbers_ok p s_species m ->
  length m = length (g_back g) -> Forall is_Some m ->
  exists t m', read_species p s_species g m old = Ret t /\ species_to_module p g t m = Ret (IRM_OK, m') /\
    forall j gc s v, rep g j gc -> m !! j = Some (Some s) -> water g gc v -> accounts p s v ->
      exists s', m' !! j = Some (Some s') /\ s_h s' = s_h s /\ s_o s' = s_o s /\ s_cb s' = s_cb s /\
        forall e, element_name e -> let x := listed (s_totals s) e in listed (s_totals s') e = kept x x.
Proof.
  intros Hon Hp Hg HN Hl Ha. destruct (species_read p s_species g m old Hon Hg HN Hl Ha) as (t & E & L & S').
  destruct (species_set p g t m Hon Hp Hg) as (m' & E' & L' & S2); [lia|done|].
  exists t, m'. split_and!; [done..|]. intros j gc s v Hr Hs Hw Hacc.
  destruct (S2 j gc Hr) as [_ B]. destruct (B s Hs) as (s' & v' & Hs' & Hw' & (R1 & R2 & R3 & R4 & _)).
  assert (v' = v) as ->.
  { destruct Hw as (a & b & c & W1 & W2 & W3 & ->). destruct Hw' as (a' & b' & c' & W1' & W2' & W3' & ->). congruence. }
  destruct (rep_props g j gc Hg Hr) as (Hgc & Hcov & _).
  destruct (Hacc (map (fun i => conc_at (g_n g) t i gc) (seq 0 (nspecies p)))) as (A1 & A2 & A3 & A4).
  { by rewrite map_length, seq_length. }
  { intros i x Hi. apply list_lookup_fmap_Some in Hi as (k & Hk & ->). apply lookup_seq in Hk as [-> Hk].
    cbn [Nat.add] in *. destruct (S' i gc Hk Hgc) as [A _]. destruct (A j s Hcov Hs) as (x & Hx & Hsp).
    unfold conc_at. by rewrite Hx. }
  exists s'. unfold nspecies in *. rewrite !held_made in R1, R2, R3. split_and!; [done|congruence..|].
  intros e He. cbv zeta. rewrite (R4 e He), held_made. by rewrite <- (A4 e He).
Qed.
Print Assumptions species_round_trip.

(** The example cell: species 9 is the second of the table, 7 the third; grid cell 0 is inactive and
    keeps the caller's values where there are any. *)
Definition ex_old : list Qc := [qz 8; qz 8; qz 8; qz 8].
Definition see_l (r : outcome (list Qc)) : option (list Qc) := match r with Ret l => Some l | _ => None end.
Lemma ex_numbers : numbers_ok ex_p s_species ex_m.
Proof.
  intros s Hs. apply elem_of_list_singleton in Hs. injection Hs as ->. cbn [s_species ex_sol]. split.
  - intros k x Hk. apply elem_of_list_to_map_2 in Hk.
    apply elem_of_cons in Hk as [[= -> ->]|Hk]; [exists 1%nat; split; [by vm_compute|cbn; lia]|].
    apply elem_of_list_singleton in Hk as [= -> ->]. exists 2%nat. split; [by vm_compute|cbn; lia].
  - intros k k' i [x Hk] [x' Hk'] H1 H2. apply elem_of_list_to_map_2 in Hk, Hk'.
    change (p_index ex_p) with ex_index in *. apply elem_of_list_to_map_2 in H1, H2.
    rewrite !elem_of_cons, elem_of_nil in H1, H2.
    destruct H1 as [?|[?|[?|?]]], H2 as [?|[?|[?|?]]]; by simplify_eq.
Qed.
Example species_read_case : p_save ex_p = true /\ grid_ok ex_g /\ numbers_ok ex_p s_species ex_m /\
  length ex_m = length (g_back ex_g) /\ Forall is_Some ex_m /\
  see_l (read_species ex_p s_species ex_g ex_m ex_old) =
    Some [qz 8; 0; 0;  qz 8; qz 5; qz 5;  0; qz 6; qz 6].
Proof.
  split_and!; [done|apply ex_g_ok|apply ex_numbers|done|by repeat constructor|]. vm_compute. qlit.
Qed.

(** The documentation says that inactive cells are set to 1e30: they hold 0 or what the caller left. *)
Theorem species_inactive_refuted :
  grid_ok ex_g /\ (forall j, ~ covers ex_g j 0%nat) /\
  option_map (fun l => l !! 0%nat) (see_l (read_species ex_p s_species ex_g ex_m [])) = Some (Some 0) /\
  option_map (fun l => l !! 0%nat) (see_l (read_species ex_p s_species ex_g ex_m ex_old)) = Some (Some (qz 8)) /\
  qz 8 <> inactive.
Proof.
  split_and!; [apply ex_g_ok| |vm_compute; qlit|vm_compute; qlit|by vm_compute].
  intros [|j] (b & Hb & Hin); cbn in Hb; [|done]. injection Hb as <-.
  repeat (apply elem_of_cons in Hin as [?|Hin]; [done|]). by apply elem_of_nil in Hin.
Qed.
Print Assumptions species_inactive_refuted.

(** A species number that is not in the table (a species table older than the solutions) takes the
    place of the first species. *)
Theorem species_unknown_refuted :
  exists s, s_species s !! 4%Z = Some (qz 55) /\ p_index ex_p !! 4%Z = Some 0%nat /\
    p_index ex_p !! 20%Z = None /\
    option_map (fun l => l !! 1%nat) (see_l (read_species ex_p s_species ex_g [Some s] [])) = Some (Some (qz 2)).
Proof.
  exists (ex_sol (list_to_map [(4%Z, qz 55); (20%Z, qz 2)])). split_and!; try (by vm_compute).
Qed.
Print Assumptions species_unknown_refuted.

(** A cell without a solution is dereferenced. *)
Theorem species_read_missing_refuted p f g m old : p_save p = true -> g_back g <> [] ->
  m !! 0%nat = Some None -> read_species p f g m old = UB.
Proof.
  intros Hon Hb Hm. unfold read_species. rewrite Hon. destruct (g_back g); [done|]. destruct m as [|[s|] m]; done.
Qed.
Print Assumptions species_read_missing_refuted.

(** A balanced cell for the round trip: 1 liter of 55 water and 3 NaOH (2 liters hold twice that). *)
Definition bal_sp : gmap Z Qc := list_to_map [(4%Z, qz 55); (7%Z, qz 3)].
Definition bal_sol : sol :=
  Sol (qz 25) (qz 7) (qz 4) 0 (qz 1) (qz 1) 0 0 (qz 1) (qz 226) (qz 116) 0 (qz 1) (qz 2) 0
      [("Na"%string, qz 6)] [] [] bal_sp.
Lemma bal_values xs : length xs = nspecies ex_p ->
  (forall i x, xs !! i = Some x -> species_of ex_p s_species bal_sol i x) -> xs = [qz 55; 0; qz 3].
Proof.
  intros L H. destruct xs as [|a [|b [|c [|]]]]; try done.
  assert (Hpl : forall k i, p_index ex_p !! k = Some i -> (k = 4%Z /\ i = 0%nat) \/ (k = 9%Z /\ i = 1%nat) \/ (k = 7%Z /\ i = 2%nat)).
  { intros k i Hk. change (p_index ex_p) with ex_index in *. apply elem_of_list_to_map_2 in Hk.
    repeat (apply elem_of_cons in Hk as [[= -> ->]|Hk]; [tauto|]). by apply elem_of_nil in Hk. }
  assert (S0 := H 0%nat a eq_refl). assert (S1 := H 1%nat b eq_refl). assert (S2 := H 2%nat c eq_refl).
  f_equal; [|f_equal; [|f_equal]].
  - destruct S0 as [(k & K1 & K2)|[K _]].
    + destruct (Hpl _ _ K1) as [[-> _]|[[_ ?]|[_ ?]]]; [|done..]. injection K2 as <-. done.
    + discriminate (K 4%Z eq_refl).
  - destruct S1 as [(k & K1 & K2)|[_ K]]; [|done].
    destruct (Hpl _ _ K1) as [[_ ?]|[[-> _]|[_ ?]]]; [done| |done]. discriminate K2.
  - destruct S2 as [(k & K1 & K2)|[K _]].
    + destruct (Hpl _ _ K1) as [[_ ?]|[[_ ?]|[-> _]]]; [done..|]. injection K2 as <-. done.
    + discriminate (K 7%Z eq_refl).
Qed.
Example species_round_trip_case :
  rep ex_g 0 1 /\ water ex_g 1 (qz 2) /\ accounts ex_p bal_sol (qz 2) /\ numbers_ok ex_p s_species [Some bal_sol].
Proof.
  split_and!.
  - by exists [2%nat].
  - exists (qz 1), (qz 1), (qz 2). split_and!; done.
  - intros xs L H. rewrite (bal_values xs L H). split_and!; [apply Qc_is_canon; by vm_compute..|].
    intros e (_ & _ & E1 & E2 & E3). cbn [listed s_totals bal_sol made_of ex_p p_stoich ex_st].
    rewrite !(decide_False (P := "Charge"%string = e)), !(decide_False (P := "H"%string = e)),
      !(decide_False (P := "O"%string = e)) by congruence.
    destruct (decide ("Na"%string = e)); (apply Qc_is_canon; vm_compute; reflexivity).
  - intros s Hs. apply elem_of_list_singleton in Hs. injection Hs as ->. cbn [s_species bal_sol]. split.
    + intros k x Hk. apply elem_of_list_to_map_2 in Hk.
      apply elem_of_cons in Hk as [[= -> ->]|Hk]; [exists 0%nat; split; [by vm_compute|cbn; lia]|].
      apply elem_of_list_singleton in Hk as [= -> ->]. exists 2%nat. split; [by vm_compute|cbn; lia].
    + intros k k' i _ _ H1 H2. change (p_index ex_p) with ex_index in *. apply elem_of_list_to_map_2 in H1, H2.
      rewrite !elem_of_cons, elem_of_nil in H1, H2.
    destruct H1 as [?|[?|[?|?]]], H2 as [?|[?|[?|?]]]; by simplify_eq.
Qed.
Example species_short_case : species_to_module ex_p ex_g [qz 55; qz 55; qz 55; qz 1; qz 1; qz 1; qz 3] ex_m = UB.
Proof.
  apply (species_set_short_refuted ex_p ex_g _ ex_m [2%nat] 1%nat (Some (ex_sol ex_sp)) 2%nat); try done; cbn; lia.
Qed.
Example species_missing_case : read_species ex_p s_species ex_g [None] [] = UB.
Proof. by apply species_read_missing_refuted. Qed.
